(** * Calendar and date texts, independent of the model *)
From Coq Require Import String.
From Verif Require Import Base Str_Spec.
Open Scope Z_scope.

(** ** Calendar (proleptic Gregorian, as in POSIX) *)
Definition leap (y : Z) : bool := (y mod 4 =? 0) && (negb (y mod 100 =? 0) || (y mod 400 =? 0)).
(** days in month [m] (1..12) of year [y] *)
Definition month_days (y m : Z) : Z :=
  if m =? 2 then (if leap y then 29 else 28)
  else if (m =? 4) || (m =? 6) || (m =? 9) || (m =? 11) then 30 else 31.
(** days of the year before month [m] *)
Fixpoint days_before (y : Z) (m : nat) : Z :=
  match m with O => 0 | S k => days_before y k + month_days y (Z.of_nat k + 1) end.
(** number of the first of January of year [y], 1970 being 0; see [new_year_next] *)
Definition new_year (y : Z) : Z :=
  365 * (y - 1970) + ((y - 1) / 4 - (y - 1) / 100 + (y - 1) / 400 - 477).
Definition day_number (y m d : Z) : Z := new_year y + days_before y (Z.to_nat (m - 1)) + (d - 1).
(** 0 is Sunday; 1 January 1970 was a Thursday *)
Definition weekday (n : Z) : Z := (n + 4) mod 7.

(** this definition is the calendar: it starts at 1970 and years follow each other *)
Lemma new_year_1970 : new_year 1970 = 0. Proof. reflexivity. Qed.
Lemma new_year_next y : new_year (y + 1) = new_year y + (if leap y then 366 else 365).
Proof.
  unfold new_year, leap. replace (y + 1 - 1) with y by ring.
  destruct (Z.eqb_spec (y mod 4) 0), (Z.eqb_spec (y mod 100) 0), (Z.eqb_spec (y mod 400) 0); cbn [andb orb negb];
    Z.div_mod_to_equations; lia.
Qed.

(** ** Reading numbers and names *)
Fixpoint read_num (acc : Z) (l : list Z) : option Z :=
  match l with
  | [] => Some acc
  | c :: r => if (48 <=? c) && (c <=? 57) then read_num (10 * acc + (c - 48)) r else None
  end.
Fixpoint index_of (names : list (list Z)) (n : list Z) : option Z :=
  match names with
  | [] => None
  | x :: r => if list_eq_dec Z.eq_dec x n then Some 0 else option_map Z.succ (index_of r n)
  end.
Definition day_names := [str "Sun"; str "Mon"; str "Tue"; str "Wed"; str "Thu"; str "Fri"; str "Sat"].
Definition month_names :=
  [str "Jan"; str "Feb"; str "Mar"; str "Apr"; str "May"; str "Jun"; str "Jul"; str "Aug"; str "Sep"; str "Oct"; str "Nov"; str "Dec"].

(** ** IMF-fixdate (RFC 7231, 7.1.1.1): day-name "," SP day SP month SP year SP hh:mm:ss SP "GMT"
    The second since 1970 that the text names, if it is a text of this form for a day of
    the calendar with its right day of the week. *)
Definition read_imf (t : list Z) : option Z :=
  match t with
  | [w1; w2; w3; c1; s1; d1; d2; s2; m1; m2; m3; s3; y1; y2; y3; y4; s4; h1; h2; c2; i1; i2; c3; e1; e2; s5; g; mm; z1] =>
      if list_eq_dec Z.eq_dec [c1; s1; s2; s3; s4; c2; c3; s5; g; mm; z1] (str ",    :: GMT") then
        match index_of day_names [w1; w2; w3], read_num 0 [d1; d2], index_of month_names [m1; m2; m3],
              read_num 0 [y1; y2; y3; y4], read_num 0 [h1; h2], read_num 0 [i1; i2], read_num 0 [e1; e2] with
        | Some w, Some d, Some m, Some y, Some h, Some i, Some e =>
            let n := day_number y (m + 1) d in
            if (1 <=? d) && (d <=? month_days y (m + 1)) && (h <=? 23) && (i <=? 59) && (e <=? 59) && (w =? weekday n)
            then Some (86400 * n + 3600 * h + 60 * i + e) else None
        | _, _, _, _, _, _, _ => None
        end
      else None
  | _ => None
  end.

(** ** The form of the log: yyyy/mm/dd hh:mm:ss.mmm *)
Definition read_log (t : list Z) : option (Z * Z * Z * (Z * Z * Z * Z)) :=
  match t with
  | [y1; y2; y3; y4; s1; m1; m2; s2; d1; d2; s3; h1; h2; c1; i1; i2; c2; e1; e2; p; f1; f2; f3] =>
      if list_eq_dec Z.eq_dec [s1; s2; s3; c1; c2; p] (str "// ::.") then
        match read_num 0 [y1; y2; y3; y4], read_num 0 [m1; m2], read_num 0 [d1; d2], read_num 0 [h1; h2],
              read_num 0 [i1; i2], read_num 0 [e1; e2], read_num 0 [f1; f2; f3] with
        | Some y, Some m, Some d, Some h, Some i, Some e, Some f => Some (y, m, d, (h, i, e, f))
        | _, _, _, _, _, _, _ => None
        end
      else None
  | _ => None
  end.
