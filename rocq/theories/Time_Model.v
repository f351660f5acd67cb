(** * Model of src/common/sys_time.c: the cached clock and its two texts *)
From Coq Require Import String.
From Verif Require Import Base Str_Spec Web_Model.
Open Scope Z_scope.

(** the members of [struct tm] that are used (time.h); [t_year] counts from 1900,
    [t_mon] from 0, [t_wday] from Sunday *)
Record tm := mkTm { t_sec : Z; t_min : Z; t_hour : Z; t_mday : Z; t_mon : Z; t_year : Z; t_wday : Z }.

(** sys_time.c:6-8 [arr_week], [arr_month] *)
Definition arr_week : list (list Z) :=
  [str "Sun"; str "Mon"; str "Tue"; str "Wed"; str "Thu"; str "Fri"; str "Sat"].
Definition arr_month : list (list Z) :=
  [str "Jan"; str "Feb"; str "Mar"; str "Apr"; str "May"; str "Jun";
   str "Jul"; str "Aug"; str "Sep"; str "Oct"; str "Nov"; str "Dec"].

(** printf "%0wd": the sign counts for the width *)
Definition fmt_0d (w n : Z) : list Z :=
  if n <? 0 then let d := digits_of 20 (- n) in 45 :: zrepeat 48 (w - 1 - zlen d) ++ d
  else let d := digits_of 20 n in zrepeat 48 (w - zlen d) ++ d.

(** sys_time.c:30-32: the text of [time_str_gmt]. A name outside the tables is an
    out-of-bounds read. Simplification: [tm_year + 1900] does not wrap. *)
Definition gmt_text (g : tm) : res (list Z) :=
  let* w := of_opt FOob (zget arr_week (t_wday g)) in
  let* m := of_opt FOob (zget arr_month (t_mon g)) in
  Ok (w ++ str ", " ++ fmt_0d 2 (t_mday g) ++ str " " ++ m ++ str " " ++ fmt_0d 4 (t_year g + 1900) ++ str " " ++
      fmt_0d 2 (t_hour g) ++ str ":" ++ fmt_0d 2 (t_min g) ++ str ":" ++ fmt_0d 2 (t_sec g) ++ str " GMT").

(** [(unsigned int) n] printed with %d: the value is reinterpreted as int *)
Definition as_int (n : Z) : Z := (n + 2 ^ 31) mod 2 ^ 32 - 2 ^ 31.

(** sys_time.c:34-44: the text of [time_str_log]; [%] truncates towards zero *)
Definition log_text (l : tm) (msec : Z) : list Z :=
  fmt_0d 4 (as_int (Z.rem (t_year l + 1900) 1000 + 2000)) ++ str "/" ++ fmt_0d 2 (as_int (Z.rem (t_mon l + 1) 100)) ++ str "/" ++
  fmt_0d 2 (as_int (Z.rem (t_mday l) 100)) ++ str " " ++ fmt_0d 2 (as_int (Z.rem (t_hour l) 100)) ++ str ":" ++
  fmt_0d 2 (as_int (Z.rem (t_min l) 100)) ++ str ":" ++ fmt_0d 2 (as_int (Z.rem (t_sec l) 100)) ++ str "." ++ fmt_0d 3 msec.

(** memset and sprintf into one of the buffers [time_str_*[128]] (sys_time.c:3-4) *)
Definition sprint128 (t : list Z) : res (list Z) :=
  if 127 <? zlen t then Fault FOob else Ok (t ++ zrepeat 0 (128 - zlen t)).

(** the static variables, sys_time.c:3-5 *)
Record clock := mkClock { k_msec : Z; k_gmt : list Z; k_log : list Z }.

(** sys_time.c:16-46 [systime_update]: [sec], [usec] are the answer of gettimeofday,
    [gm] and [lo] what gmtime_r and localtime_r stored; [None]: the call failed and the
    structure on the stack was never written. *)
Definition systime_update (sec usec : Z) (gm lo : option tm) : res clock :=
  let msec := Z.quot usec 1000 in
  let* g := of_opt FUninit gm in
  let* gt := gmt_text g in
  let* gb := sprint128 gt in
  let* l := of_opt FUninit lo in
  let* lb := sprint128 (log_text l msec) in
  Ok (mkClock (sec * 1000 + msec) gb lb).

(** sys_time.c:10-12 [systime_log], [systime_gmt], read as C strings by their callers *)
Fixpoint cstring (b : list Z) : list Z :=
  match b with [] => [] | x :: r => if x =? 0 then [] else x :: cstring r end.
Definition systime_gmt (k : clock) : list Z := cstring (k_gmt k).
Definition systime_log (k : clock) : list Z := cstring (k_log k).

(** the event loop reads the clock once per round (event.c:211, process.c:113) and
    everything done in the round uses the texts of that reading *)
Inductive tick := Tick (sec usec : Z) (gm lo : option tm) | Answer.
Fixpoint dates (k : clock) (l : list tick) : res (list (list Z)) :=
  match l with
  | [] => Ok []
  | Tick s u g o :: r => let* k' := systime_update s u g o in dates k' r
  | Answer :: r => let* ds := dates k r in Ok (systime_gmt k :: ds)
  end.
