(** * TimeProofs: Go's calendar computation against the Gregorian calendar. *)
From Verif Require Import Base UtilsModel OptionsModel TimeModel SpecTime.

(** ** The specification's own sanity *)
Lemma leapb_iff y : leapb y = true <-> leap y.
Proof.
  unfold leapb, leap. rewrite andb_true_iff, orb_true_iff, negb_true_iff, !Z.eqb_eq, Z.eqb_neq.
  rewrite !Z.mod_divide by lia. tauto.
Qed.
Lemma year_length y : before_year (y + 1) = before_year y + sum (months y).
Proof.
  assert (E : sum (months y) = if leapb y then 366 else 365) by (unfold months; destruct (leapb y); reflexivity).
  rewrite E. unfold before_year, leapb. replace (y + 1 - 1) with y by lia.
  pose proof (Z.div_mod y 4 ltac:(lia)). pose proof (Z.mod_pos_bound y 4 ltac:(lia)).
  pose proof (Z.div_mod y 100 ltac:(lia)). pose proof (Z.mod_pos_bound y 100 ltac:(lia)).
  pose proof (Z.div_mod y 400 ltac:(lia)). pose proof (Z.mod_pos_bound y 400 ltac:(lia)).
  pose proof (Z.div_mod (y - 1) 4 ltac:(lia)). pose proof (Z.mod_pos_bound (y - 1) 4 ltac:(lia)).
  pose proof (Z.div_mod (y - 1) 100 ltac:(lia)). pose proof (Z.mod_pos_bound (y - 1) 100 ltac:(lia)).
  pose proof (Z.div_mod (y - 1) 400 ltac:(lia)). pose proof (Z.mod_pos_bound (y - 1) 400 ltac:(lia)).
  destruct (y mod 4 =? 0) eqn:A; destruct (y mod 100 =? 0) eqn:B; destruct (y mod 400 =? 0) eqn:C; cbn [andb orb negb];
    rewrite ?Z.eqb_eq, ?Z.eqb_neq in *; lia.
Qed.
Lemma year_one : before_year 1 = 0.
Proof. reflexivity. Qed.

(** ** The month of a day of the year *)
Definition month_day (lp : bool) (d : Z) : Z * Z :=
  if lp && (d =? 59) then (2, 29)
  else
    let day := if lp && (59 <? d) then d - 1 else d in
    let month := day / 31 in
    let end_ := daysBefore (month + 1) in
    if end_ <=? day then (month + 2, day - end_ + 1) else (month + 1, day - daysBefore month + 1).
Definition months_of (lp : bool) : list Z := [31; if lp then 29 else 28; 31; 30; 31; 30; 31; 31; 30; 31; 30; 31].
Definition good_day (lp : bool) (n : nat) : bool :=
  let '(m, d) := month_day lp (Z.of_nat n) in
  (1 <=? m) && (m <=? 12) && (1 <=? d) && (d <=? nth (Z.to_nat (m - 1)) (months_of lp) 0)
  && (sum (firstn (Z.to_nat (m - 1)) (months_of lp)) + (d - 1) =? Z.of_nat n).
Lemma all_days : forallb (good_day false) (seq 0 365) = true /\ forallb (good_day true) (seq 0 366) = true.
Proof. split; vm_compute; reflexivity. Qed.
Lemma month_day_ok (lp : bool) (d : Z) : 0 <= d < (if lp then 366 else 365) ->
  let '(m, k) := month_day lp d in
  1 <= m <= 12 /\ 1 <= k <= nth (Z.to_nat (m - 1)) (months_of lp) 0 /\ sum (firstn (Z.to_nat (m - 1)) (months_of lp)) + (k - 1) = d.
Proof.
  intros H. assert (G : good_day lp (Z.to_nat d) = true).
  { destruct all_days as [F1 F2]. rewrite forallb_forall in F1, F2. destruct lp; [apply F2|apply F1]; apply in_seq; lia. }
  unfold good_day in G. rewrite Z2Nat.id in G by lia. destruct (month_day lp d) as [m k].
  rewrite !andb_true_iff in G. lia.
Qed.

(** ** Year and day of the year *)
Lemma absDate_split d : exists y r, absDate d = (y, fst (month_day (isLeap y) r), snd (month_day (isLeap y) r)) /\
  0 <= r < (if isLeap y then 366 else 365) /\ before_year y + r = d.
Proof.
  unfold absDate.
  pose proof (Z.div_mod d 146097 ltac:(lia)) as E1. pose proof (Z.mod_pos_bound d 146097 ltac:(lia)) as B1.
  set (a := d / 146097) in *. clearbody a. set (d1 := d - 146097 * a) in *. assert (H1 : 0 <= d1 < 146097) by (unfold d1; lia).
  assert (D1 : d = 146097 * a + d1) by (unfold d1; lia). clearbody d1. clear E1 B1.
  pose proof (Z.div_mod d1 36524 ltac:(lia)) as E2. pose proof (Z.mod_pos_bound d1 36524 ltac:(lia)) as B2.
  set (b0 := d1 / 36524) in *. assert (Hb0 : 0 <= b0 <= 4) by lia. set (b := b0 - b0 / 4) in *.
  assert (Hb : (b = b0 /\ b0 <= 3) \/ (b = 3 /\ b0 = 4)).
  { unfold b. assert (b0 = 0 \/ b0 = 1 \/ b0 = 2 \/ b0 = 3 \/ b0 = 4) as X by lia.
    destruct X as [X|[X|[X|[X|X]]]]; rewrite X; [left|left|left|left|right]; cbn; lia. }
  clearbody b. set (d2 := d1 - 36524 * b) in *.
  assert (H2 : 0 <= b <= 3 /\ 0 <= d2 /\ (b < 3 -> d2 < 36524) /\ d2 < 36525) by (unfold d2; lia).
  assert (D2 : d1 = 36524 * b + d2) by (unfold d2; lia). clearbody d2. clear E2 B2 Hb Hb0. clearbody b0. clear b0.
  pose proof (Z.div_mod d2 1461 ltac:(lia)) as E3. pose proof (Z.mod_pos_bound d2 1461 ltac:(lia)) as B3.
  set (c := d2 / 1461) in *. clearbody c. set (d3 := d2 - 1461 * c) in *.
  assert (H3 : 0 <= c <= 24 /\ 0 <= d3 < 1461 /\ (c = 24 -> b < 3 -> d3 < 1460)) by (unfold d3; lia).
  assert (D3 : d2 = 1461 * c + d3) by (unfold d3; lia). clearbody d3. clear E3 B3.
  pose proof (Z.div_mod d3 365 ltac:(lia)) as E4. pose proof (Z.mod_pos_bound d3 365 ltac:(lia)) as B4.
  set (e0 := d3 / 365) in *. assert (He0 : 0 <= e0 <= 4) by lia. set (e := e0 - e0 / 4) in *.
  assert (He : (e = e0 /\ e0 <= 3) \/ (e = 3 /\ e0 = 4)).
  { unfold e. assert (e0 = 0 \/ e0 = 1 \/ e0 = 2 \/ e0 = 3 \/ e0 = 4) as X by lia.
    destruct X as [X|[X|[X|[X|X]]]]; rewrite X; [left|left|left|left|right]; cbn; lia. }
  clearbody e. set (r := d3 - 365 * e) in *.
  assert (H4 : 0 <= e <= 3 /\ 0 <= r /\ (e < 3 -> r < 365) /\ r < 366 /\ (c = 24 -> b < 3 -> r < 365)) by (unfold r; lia).
  assert (D4 : d3 = 365 * e + r) by (unfold r; lia). clearbody r. clear E4 B4 He He0. clearbody e0. clear e0.
  cbv zeta. replace (400 * a + 100 * b + 4 * c + e + 1) with (400 * a + 100 * b + 4 * c + e + 1) by reflexivity.
  set (y := 400 * a + 100 * b + 4 * c + e + 1) in *.
  exists y, r. 
  assert (Y4 : (y - 1) / 4 = 100 * a + 25 * b + c) by (symmetry; apply (Z.div_unique_pos _ _ _ e); unfold y; lia).
  assert (Y100 : (y - 1) / 100 = 4 * a + b) by (symmetry; apply (Z.div_unique_pos _ _ _ (4 * c + e)); unfold y; lia).
  assert (Y400 : (y - 1) / 400 = a) by (symmetry; apply (Z.div_unique_pos _ _ _ (100 * b + 4 * c + e)); unfold y; lia).
  split; [|split].
  - unfold month_day. destruct (isLeap y && (r =? 59)); [reflexivity|]. cbv zeta. destruct (_ <=? _); reflexivity.
  - assert (LP : e = 3 -> (c = 24 -> b = 3) -> isLeap y = true).
    { intros He Hc. assert (M4 : y mod 4 = 0) by (symmetry; apply (Z.mod_unique_pos _ _ (100 * a + 25 * b + c + 1)); unfold y; lia).
      unfold isLeap. rewrite M4. cbn [Z.eqb andb]. rewrite orb_true_iff, negb_true_iff, Z.eqb_neq, Z.eqb_eq.
      destruct (Z.eq_dec c 24) as [C|C].
      - right. symmetry. apply (Z.mod_unique_pos _ _ (a + 1)); unfold y; lia.
      - left. assert (M : y mod 100 = 4 * c + 4) by (symmetry; apply (Z.mod_unique_pos _ _ (4 * a + b)); unfold y; lia). lia. }
    destruct (isLeap y) eqn:L; [lia|]. split; [lia|].
    destruct (Z_lt_ge_dec r 365) as [Lt|Ge]; [exact Lt|]. exfalso.
    assert (e = 3) by lia. assert (c = 24 -> b = 3) by lia. specialize (LP ltac:(assumption) ltac:(assumption)). congruence.
  - unfold before_year. rewrite Y4, Y100, Y400. unfold y. lia.
Qed.
Theorem absDate_ok d : let '(y, m, k) := absDate d in date_ok y m k /\ day_number y m k = d.
Proof.
  destruct (absDate_split d) as (y & r & -> & R & E). pose proof (month_day_ok (isLeap y) r R) as M.
  destruct (month_day (isLeap y) r) as [m k]. cbn [fst snd]. unfold date_ok, day_number.
  change (months y) with (months_of (isLeap y)). destruct M as (M1 & M2 & M3). split; [split; auto|]. lia.
Qed.

(** ** The clock reading *)
Lemma civil_ok zone t : let c := civil_of zone t in let s := second_of t in
  date_ok (cv_year c) (cv_month c) (cv_day c) /\ 0 <= cv_hour c < 24 /\ 0 <= cv_min c < 60 /\ 0 <= cv_sec c < 60 /\
  instant (cv_year c) (cv_month c) (cv_day c) (cv_hour c) (cv_min c) (cv_sec c) (zone s) = s.
Proof.
  cbv zeta. unfold civil_of. set (s := second_of t). set (l := s + zone s).
  pose proof (absDate_ok (l / 86400 + unix_day)) as A. destruct (absDate (l / 86400 + unix_day)) as [[y m] d].
  cbn [cv_year cv_month cv_day cv_hour cv_min cv_sec]. destruct A as [A1 A2].
  pose proof (Z.div_mod l 86400 ltac:(lia)) as E. pose proof (Z.mod_pos_bound l 86400 ltac:(lia)) as B.
  set (r := l mod 86400) in *. clearbody r.
  assert (Q : r mod 60 = (r mod 3600) mod 60).
  { rewrite (Z.div_mod r 3600) at 1 by lia. replace (3600 * (r / 3600) + r mod 3600) with (r mod 3600 + (60 * (r / 3600)) * 60) by lia.
    apply Z.mod_add. lia. }
  pose proof (Z.div_mod r 3600 ltac:(lia)). pose proof (Z.mod_pos_bound r 3600 ltac:(lia)).
  pose proof (Z.div_mod (r mod 3600) 60 ltac:(lia)). pose proof (Z.mod_pos_bound (r mod 3600) 60 ltac:(lia)).
  split; [exact A1|]. split; [lia|]. split; [lia|]. split; [lia|].
  unfold instant. rewrite A2. change (day_number 1970 1 1) with 719162. unfold unix_day. lia.
Qed.
Lemma date_small y m d : date_ok y m d -> 1 <= m <= 12 /\ 1 <= d <= 31.
Proof.
  intros [H1 H2]. split; [exact H1|]. assert (nth (Z.to_nat (m - 1)) (months y) 0 <= 31); [|lia].
  assert (m = 1 \/ m = 2 \/ m = 3 \/ m = 4 \/ m = 5 \/ m = 6 \/ m = 7 \/ m = 8 \/ m = 9 \/ m = 10 \/ m = 11 \/ m = 12) as X by lia.
  clear H1 H2. unfold months. destruct (leapb y); repeat (destruct X as [X|X]); subst m; vm_compute; discriminate.
Qed.
Lemma num2_two x : 0 <= x < 100 -> num2 (48 + x / 10) (48 + x mod 10) = Some x.
Proof.
  intros H. pose proof (Z.div_mod x 10 ltac:(lia)). pose proof (Z.mod_pos_bound x 10 ltac:(lia)). unfold num2.
  replace (_ && _) with true by (symmetry; rewrite !andb_true_iff; lia). f_equal. lia.
Qed.
