(** * WireProofs: lemmas and tactics for encoders that fill a zeroed frame left to right and
    decoders that read it left to right. *)
From Verif Require Import Base UtilsModel UtilsProofs SpecWire.

(** *** Writing *)
Lemma wr_copy k w n lo hi src : lo = zlen w -> hi = lo + Z.of_nat k -> (k <= n)%nat ->
  copy_at (w ++ repeat 0 n) lo hi src = Ok ((w ++ fit k src) ++ repeat 0 (n - k)).
Proof.
  intros H1 -> H2. rewrite copy_at_end by lia.
  replace (lo + Z.of_nat k - lo) with (Z.of_nat k) by lia. rewrite Nat2Z.id. reflexivity.
Qed.
Lemma wr_raw w n lo hi src : lo = zlen w -> hi = lo + zlen src -> (length src <= n)%nat ->
  copy_at (w ++ repeat 0 n) lo hi src = Ok ((w ++ src) ++ repeat 0 (n - length src)).
Proof.
  intros H1 H2 H3. rewrite (wr_copy (length src)); auto. rewrite fit_exact by auto. reflexivity.
Qed.

Ltac wlen := autorewrite with zlen; rewrite ?app_length, ?length_fit, ?length_be; cbn [length]; lia.

(** One write step. *)
Ltac wstep :=
  match goal with
  | |- context [copy_at (?w ++ repeat 0 ?n) ?lo (?lo + zlen ?src) ?src] =>
      rewrite (wr_raw w n lo (lo + zlen src) src) by wlen
  | |- context [copy_at (?w ++ repeat 0 ?n) ?lo (?lo + ?k) ?src] =>
      let k' := eval compute in (Z.to_nat k) in rewrite (wr_copy k' w n lo (lo + k) src) by wlen
  | |- context [copy_at (?w ++ repeat 0 ?n) ?lo ?hi ?src] =>
      let k' := eval compute in (Z.to_nat (hi - lo)) in rewrite (wr_copy k' w n lo hi src) by wlen
  | |- context [set_at (?w ++ repeat 0 ?n) ?i ?b] => rewrite (set_at_end w n i b) by wlen
  | |- context [put_be ?k (?w ++ repeat 0 ?n) ?lo ?hi ?v] => rewrite (put_be_end k w n lo hi v) by wlen
  end; cbn [bind].

Lemma be1 v : is_byte v -> be 1 v = [v].
Proof. unfold is_byte. intros. cbn. rewrite Z.mod_small by lia. reflexivity. Qed.

Lemma fit_zero_gap w n k : (k <= n)%nat -> w ++ repeat 0 n = (w ++ repeat 0 k) ++ repeat 0 (n - k).
Proof. intros. rewrite <- app_assoc, <- repeat_app. do 2 f_equal. lia. Qed.

Lemma render_app a b : render (a ++ b) = render a ++ render b.
Proof. unfold render. rewrite map_app, concat_app. reflexivity. Qed.

(** *** Reading *)
Lemma slice_at {A} (f pre x rest : list A) lo hi : f = pre ++ x ++ rest -> lo = zlen pre -> hi = lo + zlen x ->
  slice f lo hi = Ok x.
Proof.
  intros -> -> ->. rewrite slice_app_r by lia. replace (zlen pre - zlen pre) with 0 by lia.
  apply slice_app_l. lia.
Qed.
Lemma at_at {A} (f pre : list A) x rest i : f = pre ++ [x] ++ rest -> i = zlen pre -> at_ f i = Ok x.
Proof.
  intros -> ->. rewrite at_app_r by lia. replace (zlen pre - zlen pre) with 0 by lia. apply at_here.
Qed.
Lemma get_be_at n f pre x rest lo hi : f = pre ++ x ++ rest -> lo = zlen pre -> hi = lo + zlen x ->
  zlen x = Z.of_nat n -> get_be n f lo hi = Ok (unbe x).
Proof.
  intros -> -> -> H. rewrite get_be_app_r by lia. replace (zlen pre - zlen pre) with 0 by lia.
  apply get_be_here; lia.
Qed.
Lemma at_be1 f pre v rest i : f = pre ++ be 1 v ++ rest -> i = zlen pre -> is_byte v -> at_ f i = Ok v.
Proof. intros H1 H2 H3. rewrite be1 in H1 by auto. eapply at_at; eauto. Qed.
Lemma get_be_be n f pre v rest lo hi : f = pre ++ be n v ++ rest -> lo = zlen pre -> hi = lo + Z.of_nat n ->
  0 <= v < 256 ^ Z.of_nat n -> get_be n f lo hi = Ok v.
Proof.
  intros H1 H2 H3 H4. rewrite (get_be_at n f pre (be n v) rest lo hi); auto; autorewrite with zlen; auto.
  rewrite unbe_be_small; auto.
Qed.
Lemma slice_fit f pre w s rest lo hi : f = pre ++ fit w s ++ rest -> lo = zlen pre -> hi = lo + Z.of_nat w ->
  slice f lo hi = Ok (fit w s).
Proof. intros. eapply slice_at; eauto. autorewrite with zlen. auto. Qed.
(** A reader moving over [f] = [pre] (read) ++ [rest] (unread); [Hb] is that equation.  Range
    side conditions must be in the context. *)
Ltac rstep Hb :=
  cbv zeta;
  match type of Hb with
  | ?f = ?pre ++ be ?n ?v ++ ?rest =>
      match goal with
      | |- context [at_ f ?i] => rewrite (at_be1 f pre v rest i Hb) by (first [assumption | wlen])
      | |- context [get_be n f ?lo ?hi] => rewrite (get_be_be n f pre v rest lo hi Hb) by (first [assumption | wlen])
      end
  | ?f = ?pre ++ fit ?w ?s ++ ?rest =>
      match goal with |- context [slice f ?lo ?hi] => rewrite (slice_fit f pre w s rest lo hi Hb) by wlen end
  | ?f = ?pre ++ ?x ++ ?rest =>
      match goal with |- context [slice f ?lo ?hi] => rewrite (slice_at f pre x rest lo hi Hb) by wlen end
  end; rewrite app_assoc in Hb; cbn [bind].

Lemma TrimStr_fits w s : fits w s -> TrimStr (fit w s) = s.
Proof. intros [H1 H2]. apply TrimStr_fit; auto. Qed.

(** Close an equality of two frames whose written parts agree up to associativity and whose
    remaining zero tails have equal length. *)
Ltac wnorm := repeat rewrite <- app_assoc; cbn [app]; rewrite ?app_nil_r.
Ltac wtail k := match goal with |- context [repeat 0 (?a - ?b)] => replace (a - b)%nat with k by lia end; cbn [repeat]; wnorm.
Lemma be8_0 : be 8 0 = [0;0;0;0;0;0;0;0].
Proof. reflexivity. Qed.
