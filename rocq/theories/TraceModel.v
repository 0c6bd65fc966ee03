(** osip_trace: src/osipparser2/osip_port.c 948-1183, as built for Linux with traces and syslog *)
From Coq Require Import String ZArith Ascii Bool List.
From Verif Require Import Base Str MemModel PortModel CString HelpModel.
Import ListNotations.
Open Scope Z_scope.

(** logfile, use_syslog, trace_func and tracing_table: osip_port.c 121-130.  Files and functions have numbers; file 0 is stdout *)
Record logger := mkLogger { l_file : option nat; l_syslog : bool; l_func : option nat; l_table : table }.
Definition logger_start : logger := mkLogger None false None table_start.

(** osip_trace_initialize: 816-839; osip_trace_initialize_syslog: 841-858; osip_trace_initialize_func: 874-890; the calls about levels: HelpModel.
    The argument is the level and the file or function, which may be NULL *)
Inductive init := InitFile (level : nat) (f : option nat) | InitSyslog (level : nat) | InitFunc (level : nat) (f : option nat) | Levels (c : tcall).
Definition init_call (l : logger) (i : init) : res logger :=
  match i with
  | InitFile n f => Ok (mkLogger (Some (match f with Some f => f | None => O end)) (l_syslog l) (l_func l) (fill n 0 END_TRACE_LEVEL))
  | InitSyslog n => Ok (mkLogger (l_file l) true (l_func l) (fill n 0 END_TRACE_LEVEL))
  | InitFunc n f => Ok (mkLogger (l_file l) (l_syslog l) f (fill n 0 END_TRACE_LEVEL))
  | Levels c => do t <- trace_call (l_table l) c ; Ok (mkLogger (l_file l) (l_syslog l) (l_func l) t)
  end.
Fixpoint inits (l : logger) (h : list init) : res logger := match h with [] => Ok l | i :: h => do l <- init_call l i ; inits l h end.

(** Where osip_trace writes, and what it returns: 983-996 and the tests 1003-1102.  [f]: its argument f *)
Inductive sink := ToFile (f : nat) | ToFunc (f : nat) | ToSyslog.
Definition trace_to (l : logger) (level : nat) (f : option nat) : res (Z * option sink) :=
  match l_file l, l_syslog l, l_func l with
  | None, false, None => Ok (1, None)
  | _, _, _ =>
    do on <- is_active (l_table l) level ;
    if negb on then Ok (0, None)
    else
      let f := match f, l_func l with None, None => l_file l | _, _ => f end in
      Ok (0, match f, l_syslog l with
             | Some f, false => Some (ToFile f)
             | _, _ => match l_func l with Some g => Some (ToFunc g) | None => if l_syslog l then Some ToSyslog else None end
             end)
  end.

(** strrchr (s, c) + 1 *)
Fixpoint after_last (c : ascii) (s : str) : option str :=
  match s with
  | [] => None
  | x :: s => match after_last c s with Some t => Some t | None => if Ascii.eqb x c then Some s else None end
  end.
(** the name of the file in a trace: 973-981 *)
Definition trace_name (file : str) : str :=
  match after_last "/" file with
  | Some t => t
  | None => match after_last "092" file with Some t => t | None => file end
  end.

(** relative_time: 956-971; start and now as tv_sec and tv_usec.  time_t and suseconds_t have 64 bits *)
Definition relative_time (start now : Z * Z) : Z :=
  let r := int32 (1000 * (fst now - fst start)) in
  if snd now - snd start >? 0 then int32 (r + Z.quot (snd now - snd start) 1000) else int32 (r - Z.quot (snd start - snd now) 1000).

(** what fits in [size] bytes with the terminator *)
Definition that_fits (size : Z) (t : str) : str := if slen t <? size then t else firstn (Z.to_nat (size - 1)) t.
(** snprintf (b + i, size, ...) where the text printed is [t]; [size] is converted to size_t *)
Definition c_snprintf (b : buffer) (i size : Z) (t : str) : res (buffer * Z) :=
  let size := if size <? 0 then size + 18446744073709551616 else size in
  if slen b <? i then UB
  else if size =? 0 then Ok (b, slen t)
  else do b <- wr_range b i (that_fits size t ++ [NUL]) ; Ok (b, slen t).

(** MAX_LENGTH_TR: 944 *)
Definition MAX_LENGTH_TR : Z := 512.
(** the words of the levels: 1109-1124 *)
Definition level_word (level : nat) : str :=
  match level with
  | 0%nat => $"| FATAL | <" | 1%nat => $"|  BUG  | <" | 2%nat => $"| ERROR | <" | 3%nat => $"|WARNING| <"
  | 4%nat => $"| INFO1 | <" | 5%nat => $"| INFO2 | <" | 6%nat => $"| INFO3 | <" | _ => $"| INFO4 | <"
  end.
(** "| ... | <%s: %i> "; [num]: the line number as printed *)
Definition trace_head (level : nat) (name num : str) : str := level_word level ++ name ++ $": " ++ num ++ $"> ".
(** the line given to syslog: 1104-1126.  [msg]: what the format and the arguments give *)
Definition syslog_line (level : nat) (name num msg : str) : res str :=
  do p <- c_snprintf (repeat NUL (Z.to_nat MAX_LENGTH_TR)) 0 (MAX_LENGTH_TR - 1) (trace_head level name num) ;
  do q <- c_snprintf (fst p) (snd p) (MAX_LENGTH_TR - 1 - snd p) msg ;
  c_string (fst q).
