(** Small helpers of src/osipparser2: osip_strcasestr and the comparisons oSIP writes itself on some systems, reason phrases, trace levels *)
From Coq Require Import ZArith Ascii String Bool List Arith.
From Verif Require Import Base Str.
Import ListNotations.
Local Open Scope string_scope.
Local Open Scope list_scope.
Local Open Scope nat_scope.

(** osip_strcasestr: osip_port.c 528-546; the place of what is found.  The inner loop looks for the first character, the outer one for the
    rest: both go on at the next character, here one loop *)
Fixpoint find_from (i : nat) (haystack : str) (c : ascii) (needle : str) : option nat :=
  match haystack with
  | [] => None
  | sc :: haystack =>
    if Ascii.eqb (tolower sc) c && strncaseeq (List.length needle) haystack needle then Some i else find_from (S i) haystack c needle
  end.
Definition strcasestr (haystack needle : str) : option nat :=
  match needle with [] => Some 0 | c :: needle => find_from 0 haystack (tolower c) needle end.

(** what a pointer to a text points to *)
Definition head (s : str) : ascii := match s with [] => NUL | c :: _ => c end.
(** osip_strcasecmp for VxWorks and pSOS, answer 0: osip_port.c 488-493.  tolower is given a char, which is
    undefined for the negative ones in C; here it is the C locale's on bytes *)
Fixpoint vx_strcaseeq (s1 s2 : str) : bool :=
  match s1 with
  | [] => Ascii.eqb (tolower NUL) (tolower (head s2))
  | c :: s1 => if Ascii.eqb (tolower c) (tolower (head s2)) then vx_strcaseeq s1 (tl s2) else false
  end.
(** osip_strncasecmp for VxWorks and pSOS, answer 0: osip_port.c 506-516 *)
Fixpoint vx_loop (len : nat) (s1 s2 : str) : bool :=
  let same := Ascii.eqb (tolower (head s1)) (tolower (head s2)) in
  match len with
  | O => same
  | S len =>
    if same then
      if (len =? 0) || Ascii.eqb (head s1) NUL || Ascii.eqb (head s2) NUL then same else vx_loop len (tl s1) (tl s2)
    else same
  end.
Definition vx_strncaseeq (len : nat) (s1 s2 : str) : bool := if len =? 0 then true else vx_loop len s1 s2.

(** osip_message_get_reason: osip_message_parse.c 948-1065 *)
Open Scope Z_scope.
Definition reasons1xx : list (Z * str) :=
  [(100, $"Trying"); (180, $"Ringing"); (181, $"Call Is Being Forwarded"); (182, $"Queued"); (183, $"Session Progress")].
Definition reasons2xx : list (Z * str) := [(200, $"OK"); (202, $"Accepted")].
Definition reasons3xx : list (Z * str) :=
  [(300, $"Multiple Choices"); (301, $"Moved Permanently"); (302, $"Moved Temporarily"); (305, $"Use Proxy"); (380, $"Alternative Service")].
Definition reasons4xx : list (Z * str) :=
  [(400, $"Bad Request"); (401, $"Unauthorized"); (402, $"Payment Required"); (403, $"Forbidden"); (404, $"Not Found");
   (405, $"Method Not Allowed"); (406, $"Not Acceptable"); (407, $"Proxy Authentication Required"); (408, $"Request Timeout");
   (409, $"Conflict"); (410, $"Gone"); (411, $"Length Required"); (412, $"Conditional Request Failed"); (413, $"Request Entity Too Large");
   (414, $"Request-URI Too Long"); (415, $"Unsupported Media Type"); (416, $"Unsupported URI Scheme"); (417, $"Unknown Resource-Priority");
   (420, $"Bad Extension"); (421, $"Extension Required"); (422, $"Session Interval Too Small"); (423, $"Interval Too Brief");
   (469, $"Bad Info Package"); (480, $"Temporarily Unavailable"); (481, $"Call/Transaction Does Not Exist"); (482, $"Loop Detected");
   (483, $"Too Many Hops"); (484, $"Address Incomplete"); (485, $"Ambiguous"); (486, $"Busy Here"); (487, $"Request Terminated");
   (488, $"Not Acceptable Here"); (489, $"Bad Event"); (491, $"Request Pending"); (493, $"Undecipherable")].
Definition reasons5xx : list (Z * str) :=
  [(500, $"Server Internal Error"); (501, $"Not Implemented"); (502, $"Bad Gateway"); (503, $"Service Unavailable");
   (504, $"Server Time-out"); (505, $"Version Not Supported"); (513, $"Message Too Large")].
Definition reasons6xx : list (Z * str) :=
  [(600, $"Busy Everywhere"); (603, $"Decline"); (604, $"Does Not Exist Anywhere"); (606, $"Not Acceptable"); (687, $"Dialog Terminated")].
(** the loop: 1058-1060 *)
Fixpoint scan (l : list (Z * str)) (code : Z) : option str :=
  match l with [] => None | (c, r) :: l => if c =? code then Some r else scan l code end.
Definition get_reason (code : Z) : option str :=
  match Z.quot code 100 with
  | 1 => scan reasons1xx code
  | 2 => scan reasons2xx code
  | 3 => scan reasons3xx code
  | 4 => scan reasons4xx code
  | 5 => scan reasons5xx code
  | 6 => scan reasons6xx code
  | _ => None
  end.
Close Scope Z_scope.

(** Trace levels: osip_port.c 816-910.  [END_TRACE_LEVEL] is 8 (osip_port.h 206-224) and is itself a value of the type of levels *)
Definition END_TRACE_LEVEL : nat := 8.
Definition table := list bool.
(** "int tracing_table[END_TRACE_LEVEL]": osip_port.c 128; static, so all 0 *)
Definition table_start : table := repeat false END_TRACE_LEVEL.
(** the loop of osip_trace_initialize, osip_trace_initialize_syslog, osip_trace_enable_until_level and
    osip_trace_initialize_func: 831-837, 851-857, 865-871, 882-888 *)
Fixpoint fill (level : nat) (i n : nat) : table := match n with O => [] | S n => (i <? level) :: fill level (S i) n end.
Fixpoint set_at (i : nat) (b : bool) (t : table) : res table :=
  match t, i with
  | [], _ => UB
  | _ :: t, O => Ok (b :: t)
  | x :: t, S i => do t <- set_at i b t ; Ok (x :: t)
  end.
Inductive tcall := Until (level : nat) | Enable (level : nat) | Disable (level : nat).
Definition trace_call (t : table) (c : tcall) : res table :=
  match c with
  | Until l => Ok (fill l 0 END_TRACE_LEVEL)
  | Enable l => set_at l true t
  | Disable l => set_at l false t
  end.
Fixpoint trace_calls (t : table) (l : list tcall) : res table :=
  match l with [] => Ok t | c :: l => do t <- trace_call t c ; trace_calls t l end.
(** osip_is_trace_level_activate: 905-910 *)
Definition is_active (t : table) (level : nat) : res bool := match nth_error t level with Some b => Ok b | None => UB end.
