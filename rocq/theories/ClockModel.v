(** The clock of oSIP on systems whose monotonic clock stops in deep sleep (ANDROID): src/osip2/osip_time.c.  Clocks are in microseconds *)
From Coq Require Import ZArith List Bool.
Import ListNotations.
Open Scope Z_scope.

Definition second : Z := 1000000.
(** "static struct timeval offset" (osip_time.c 29) and the two static variables of osip_compensatetime (220-221), of which only tv_sec is used *)
Record clock := mkClock { offset : Z; last_mono : Z; last_real : Z }.
Definition clock_start : clock := mkClock 0 0 0.
(** osip_gettimeofday: osip_time.c 126-138 (Linux); [mono]: what clock_gettime answers *)
Definition now (c : clock) (mono : Z) : Z := mono + offset c * second.
(** osip_compensatetime: osip_time.c 217-267.  The clocks are read at one moment: in C they are read twice, one after the other *)
Definition compensate (c : clock) (real mono : Z) : clock :=
  let now_real := real / second in
  let now_mono := mono / second in
  if now_real =? 0 then c else
  if last_mono c =? 0 then mkClock (offset c) now_mono now_real else
  let diff_mono := now_mono - last_mono c in
  let diff_real := now_real - last_real c in
  if diff_real <? 5 then c else
  if 3600 <? diff_real then c else
  if diff_real <? diff_mono + 2 then c else
  mkClock (offset c + (diff_real - diff_mono)) now_mono now_real.

(** the device: it is awake, it sleeps, or the program asks for the time (osip_getsystemtime: osip_time.c 269-284) *)
Record device := mkDev { real : Z; mono : Z; clk : clock }.
Inductive move := Awake (us : N) | Asleep (us : N) | Ask.
Definition go (d : device) (m : move) : device :=
  match m with
  | Awake t => mkDev (real d + Z.of_N t) (mono d + Z.of_N t) (clk d)
  | Asleep t => mkDev (real d + Z.of_N t) (mono d) (clk d)
  | Ask => mkDev (real d) (mono d) (compensate (clk d) (real d) (mono d))
  end.
Definition goes (d : device) (l : list move) : device := fold_left go l d.
Definition time (d : device) : Z := now (clk d) (mono d).
