(** * UtilsProofs: proofs about UtilsModel. *)
From Verif Require Import Base UtilsModel SpecText.

(** ** Splitting *)

Lemma zeros_nil n : zeros n = [] ++ repeat 0 (Z.to_nat n).
Proof. reflexivity. Qed.

Definition head6 (g parts i : Z) : bytes := [5; 0; 3; g; u8 parts; u8 (i + 1)].

Lemma write_head6 g p q k : (6 <= k)%nat ->
  (p1 <- set_at (repeat 0 k) 0 5 ;;
   p2 <- set_at p1 1 0 ;; p3 <- set_at p2 2 3 ;; p4 <- set_at p3 3 g ;;
   p5 <- set_at p4 4 p ;; set_at p5 5 q)
  = Ok ([5; 0; 3; g; p; q] ++ repeat 0 (k - 6)).
Proof.
  intros H. do 6 (destruct k as [|k]; [lia|]).
  change (repeat 0 (S (S (S (S (S (S k))))))) with ([] ++ repeat 0 (S (S (S (S (S (S k))))))).
  repeat (rewrite set_at_end by (cbn; lia); cbn [bind]).
  cbn [app Nat.sub]. rewrite Nat.sub_0_r. reflexivity.
Qed.

Lemma bind_assoc {A B C} (x : res A) (f : A -> res B) (g : B -> res C) :
  bind (bind x f) g = bind x (fun a => bind (f a) g).
Proof. destruct x; reflexivity. Qed.

Lemma split_part_ok content pkgLen parts tailLen g i :
  let bodyLen := pkgLen - 6 in
  0 < bodyLen -> 0 <= i < parts -> 0 <= tailLen < bodyLen ->
  bodyLen * (parts - 1) <= zlen content -> tailLen <= zlen content ->
  split_part content pkgLen bodyLen parts tailLen g i
  = Ok (head6 g parts i ++
        (if i =? parts - 1 then firstn (Z.to_nat tailLen) content
         else firstn (Z.to_nat bodyLen) (skipn (Z.to_nat (bodyLen * i)) content))).
Proof.
  intros bodyLen Hb Hi Ht Hc Hc2. unfold split_part.
  pose proof (write_head6 g (u8 parts) (u8 (i+1))) as W.
  destruct (i =? parts - 1) eqn:El.
  - unfold zeros. specialize (W (Z.to_nat (6 + tailLen)) ltac:(lia)).
    rewrite <- !bind_assoc in *. rewrite W. cbn [bind].
    replace (Z.to_nat (6 + tailLen) - 6)%nat with (Z.to_nat tailLen) by lia.
    destruct (slice content 0 tailLen) as [s| |] eqn:Es.
    + cbn [bind]. pose proof (slice_len _ _ _ _ Es) as Hl.
      unfold slice in Es. replace ((0 <=? 0) && (0 <=? tailLen) && (tailLen <=? zlen content)) with true in Es by lia.
      injection Es as <-. cbn [skipn Z.to_nat] in Hl |- *. rewrite Z.sub_0_r in *.
      rewrite zlen_app, zlen_repeat. change (zlen [5;0;3;g;u8 parts;u8 (i+1)]) with 6.
      rewrite copy_at_end; [ | reflexivity | lia | lia].
      rewrite fit_exact by (unfold zlen in *; lia).
      replace (Z.to_nat tailLen - _)%nat with 0%nat by lia.
      rewrite app_nil_r. reflexivity.
    + exfalso; eapply slice_noerr; eauto.
    + apply slice_panic_iff in Es. lia.
  - unfold zeros. specialize (W (Z.to_nat pkgLen) ltac:(lia)).
    rewrite <- !bind_assoc in *. rewrite W. cbn [bind].
    assert (bodyLen * (i+1) <= zlen content) by nia.
    destruct (slice content (bodyLen * i) (bodyLen * (i + 1))) as [s| |] eqn:Es.
    + cbn [bind]. pose proof (slice_len _ _ _ _ Es) as Hl.
      unfold slice in Es. replace (_ && _ && _) with true in Es by nia.
      injection Es as Es.
      rewrite copy_at_end; [ | reflexivity | lia | lia].
      replace (Z.to_nat (pkgLen - 6)) with (length s) by (unfold zlen in *; lia).
      rewrite fit_exact by reflexivity.
      replace (Z.to_nat pkgLen - 6 - length s)%nat with 0%nat by (unfold zlen in *; lia).
      rewrite app_nil_r. subst s. unfold head6. do 2 f_equal. f_equal. lia.
    + exfalso; eapply slice_noerr; eauto.
    + apply slice_panic_iff in Es. nia.
Qed.

(** Body of part [i]. *)
Definition split_body (content : bytes) (bodyLen parts tailLen i : Z) : bytes :=
  if i =? parts - 1 then firstn (Z.to_nat tailLen) content
  else firstn (Z.to_nat bodyLen) (skipn (Z.to_nat (bodyLen * i)) content).

Lemma split_loop_ok content pkgLen parts tailLen g : let bodyLen := pkgLen - 6 in
  0 < bodyLen -> 0 <= tailLen < bodyLen ->
  bodyLen * (parts - 1) <= zlen content -> tailLen <= zlen content ->
  forall n i, 0 <= i -> i + Z.of_nat n = parts ->
  split_loop content pkgLen bodyLen parts tailLen g i n
  = Ok (map (fun k => head6 g parts (i + Z.of_nat k)
                      ++ split_body content bodyLen parts tailLen (i + Z.of_nat k)) (seq 0 n)).
Proof.
  intros bodyLen Hb Ht Hc Hc2. induction n; intros i Hi Hn; cbn [split_loop].
  - reflexivity.
  - unfold bodyLen in *. rewrite split_part_ok by lia. cbn [bind]. rewrite IHn by lia. cbn [bind].
    cbn [seq map]. f_equal. f_equal.
    + replace (i + Z.of_nat 0) with i by lia. reflexivity.
    + rewrite <- seq_shift, map_map. apply map_ext. intros k.
      replace (i + 1 + Z.of_nat k) with (i + Z.of_nat (S k)) by lia. reflexivity.
Qed.

(** Number of parts and length of the last body for a long content. *)
Definition nparts (len bodyLen : Z) : Z :=
  if len mod bodyLen =? 0 then len / bodyLen else len / bodyLen + 1.

Lemma split_ok g content pkgLen : 6 < pkgLen -> pkgLen <= zlen content ->
  let bodyLen := pkgLen - 6 in
  let n := nparts (zlen content) bodyLen in
  ToTPUDHISlices g content pkgLen
  = Ok (map (fun k => head6 g n (Z.of_nat k)
                      ++ split_body content bodyLen n (zlen content mod bodyLen) (Z.of_nat k))
            (seq 0 (Z.to_nat n))).
Proof.
  intros H1 H2 bodyLen n. unfold ToTPUDHISlices.
  replace (zlen content <? pkgLen) with false by lia. fold bodyLen.
  replace (bodyLen =? 0) with false by lia.
  pose proof (Z.div_mod (zlen content) bodyLen ltac:(lia)) as Hd.
  pose proof (Z.mod_pos_bound (zlen content) bodyLen ltac:(lia)) as Hm.
  change (if zlen content mod bodyLen =? 0 then zlen content / bodyLen else zlen content / bodyLen + 1)
    with n.
  assert (Hn1 : 1 <= n).
  { unfold n, nparts. destruct (_ =? 0) eqn:E; nia. }
  assert (Hn2 : bodyLen * (n - 1) <= zlen content).
  { unfold n, nparts. destruct (_ =? 0) eqn:E; nia. }
  pose proof (split_loop_ok content pkgLen n (zlen content mod bodyLen) g) as L.
  cbv zeta in L. fold bodyLen in L.
  rewrite L by lia. f_equal.
Qed.

Lemma nparts_bounds len b : 0 < b -> 0 < len ->
  b * (nparts len b - 1) < len <= b * nparts len b.
Proof.
  intros. unfold nparts. pose proof (Z.div_mod len b ltac:(lia)).
  pose proof (Z.mod_pos_bound len b ltac:(lia)). destruct (_ =? 0) eqn:E; nia.
Qed.

Lemma concat_chunks (content : bytes) (b : nat) : forall n,
  concat (map (fun k => firstn b (skipn (b * k) content)) (seq 0 n)) = firstn (b * n) content.
Proof.
  induction n as [|n IH]; [rewrite Nat.mul_0_r; reflexivity|].
  rewrite seq_S, map_app, concat_app, IH. cbn [map concat Nat.add]. rewrite app_nil_r.
  replace (b * S n)%nat with (b * n + b)%nat by lia.
  clear. set (m := (b * n)%nat). clearbody m. revert content.
  induction m as [|m IH]; intros; [reflexivity|].
  destruct content; [rewrite !firstn_nil; reflexivity|]. cbn. f_equal. apply IH.
Qed.

Lemma reassemble_heads {A} (h f : A -> bytes) ks :
  (forall k, length (h k) = 6%nat) ->
  reassemble (map (fun k => h k ++ f k) ks) = concat (map f ks).
Proof.
  intros H. unfold reassemble. rewrite map_map. f_equal. apply map_ext. intros k.
  rewrite skipn_app, H, Nat.sub_diag. rewrite skipn_all2 by (rewrite H; lia). reflexivity.
Qed.

Lemma split_reassemble g content pkgLen parts : 6 < pkgLen -> pkgLen <= zlen content ->
  ToTPUDHISlices g content pkgLen = Ok parts ->
  let bodyLen := pkgLen - 6 in
  let full := Z.to_nat (bodyLen * (nparts (zlen content) bodyLen - 1)) in
  reassemble parts = firstn full content ++ firstn (Z.to_nat (zlen content mod bodyLen)) content.
Proof.
  intros H1 H2 E bodyLen full. rewrite split_ok in E by auto. injection E as <-.
  fold bodyLen. set (n := nparts (zlen content) bodyLen) in *.
  rewrite (reassemble_heads (fun k => head6 g n (Z.of_nat k))
    (fun k => split_body content bodyLen n (zlen content mod bodyLen) (Z.of_nat k))) by reflexivity.
  assert (1 <= n). { pose proof (nparts_bounds (zlen content) bodyLen ltac:(lia) ltac:(lia)). nia. }
  replace (Z.to_nat n) with (S (Z.to_nat (n - 1))) by lia.
  rewrite seq_S, map_app, concat_app. cbn [Nat.add map concat]. rewrite app_nil_r. f_equal.
  - unfold full. rewrite Z2Nat.inj_mul by lia.
    rewrite <- concat_chunks. f_equal. apply map_ext_in. intros k Hk. apply in_seq in Hk.
    unfold split_body. replace (Z.of_nat k =? n - 1) with false by lia.
    do 2 f_equal. rewrite Z2Nat.inj_mul by lia. lia.
  - unfold split_body. replace (Z.of_nat (Z.to_nat (n - 1)) =? n - 1) with true by lia. reflexivity.
Qed.

Lemma split_short g content pkgLen : zlen content < pkgLen ->
  ToTPUDHISlices g content pkgLen = Ok [content].
Proof. intros H. unfold ToTPUDHISlices. replace (zlen content <? pkgLen) with true by lia. reflexivity. Qed.

Lemma split_never_panics g content pkgLen : 6 < pkgLen ->
  exists parts, ToTPUDHISlices g content pkgLen = Ok parts.
Proof.
  intros. destruct (Z_lt_ge_dec (zlen content) pkgLen).
  - rewrite split_short by auto; eauto.
  - rewrite split_ok by lia; eauto.
Qed.

Lemma split_zlen g content pkgLen parts : 6 < pkgLen -> pkgLen <= zlen content ->
  ToTPUDHISlices g content pkgLen = Ok parts -> zlen parts = nparts (zlen content) (pkgLen - 6).
Proof.
  intros H1 H2 E. rewrite split_ok in E by auto. injection E as <-.
  unfold zlen at 1. rewrite map_length, seq_length.
  pose proof (nparts_bounds (zlen content) (pkgLen - 6) ltac:(lia) ltac:(lia)). nia.
Qed.

Lemma split_parts g content pkgLen parts : 6 < pkgLen -> pkgLen <= zlen content ->
  ToTPUDHISlices g content pkgLen = Ok parts -> zlen parts <= 255 ->
  forall k p, nth_error parts k = Some p ->
  exists body, p = concat_part g (zlen parts) (Z.of_nat k + 1) body
    /\ zlen p <= pkgLen
    /\ (Z.of_nat k < zlen parts - 1 ->
        body = firstn (Z.to_nat (pkgLen - 6)) (skipn (k * Z.to_nat (pkgLen - 6)) content)
        /\ zlen p = pkgLen).
Proof.
  intros H1 H2 E H3 k p Hk. pose proof (split_zlen _ _ _ _ H1 H2 E) as Hz.
  pose proof (nparts_bounds (zlen content) (pkgLen - 6) ltac:(lia) ltac:(lia)) as Hn.
  rewrite split_ok in E by auto.
  match type of E with Ok ?x = Ok _ => assert (E' : x = parts) by congruence end.
  clear E; rename E' into E.
  set (n := nparts (zlen content) (pkgLen - 6)) in *.
  assert (Hkn : Z.of_nat k < n).
  { assert (nth_error parts k <> None) as HH by congruence.
    apply nth_error_Some in HH. unfold zlen in Hz. lia. }
  rewrite <- E in Hk. rewrite nth_error_map in Hk.
  rewrite (nth_error_nth' _ 0%nat) in Hk by (rewrite seq_length; lia).
  rewrite seq_nth in Hk by lia. cbn [option_map Nat.add] in Hk.
  match type of Hk with Some ?x = Some _ => assert (Hp : p = x) by congruence end. clear Hk.
  exists (split_body content (pkgLen - 6) n (zlen content mod (pkgLen - 6)) (Z.of_nat k)).
  rewrite Hz, Hp. split; [|split].
  - unfold concat_part, head6, u8. rewrite !Z.mod_small by lia. reflexivity.
  - unfold head6. rewrite zlen_app. change (zlen [5; 0; 3; g; u8 n; u8 (Z.of_nat k + 1)]) with 6.
    unfold split_body. pose proof (Z.mod_pos_bound (zlen content) (pkgLen - 6) ltac:(lia)).
    destruct (_ =? _); unfold zlen at 1; rewrite firstn_length; lia.
  - intros Hk2. unfold split_body, head6.
    replace (Z.of_nat k =? n - 1) with false by lia. rewrite Z2Nat.inj_mul by lia.
    rewrite Nat2Z.id, (Nat.mul_comm k). split; [reflexivity|].
    rewrite zlen_app. change (zlen [5; 0; 3; g; u8 n; u8 (Z.of_nat k + 1)]) with 6.
    unfold zlen. rewrite firstn_length, skipn_length.
    assert (Z.of_nat (Z.to_nat (pkgLen-6) * k) <= zlen content - (pkgLen-6)).
    { rewrite Nat2Z.inj_mul, Z2Nat.id by lia. nia. }
    unfold zlen in *. lia.
Qed.

(** ** Trimming and padding *)

Definition no_nul (s : bytes) : Prop := ~ In 0 s.

Lemma TrimStr_no_nul_id s : no_nul s -> TrimStr s = s.
Proof.
  unfold no_nul. induction s as [|b t IH]; intros H; [reflexivity|]. cbn.
  destruct (b =? 0) eqn:E; [exfalso; apply H; left; lia|].
  rewrite IH; auto. intros HI; apply H; right; auto.
Qed.

Lemma TrimStr_pad s n : no_nul s -> TrimStr (s ++ repeat 0 n) = s.
Proof.
  unfold no_nul. induction s as [|b t IH]; intros H; cbn.
  - destruct n; reflexivity.
  - destruct (b =? 0) eqn:E; [exfalso; apply H; left; lia|].
    rewrite IH; auto. intros HI; apply H; right; auto.
Qed.

Lemma TrimStr_out s : no_nul (TrimStr s).
Proof.
  unfold no_nul. induction s as [|b t IH]; cbn; auto. destruct (b =? 0) eqn:E; cbn; [tauto|].
  intros [H|H]; auto; lia.
Qed.

Lemma TrimStr_idem s : TrimStr (TrimStr s) = TrimStr s.
Proof. apply TrimStr_no_nul_id, TrimStr_out. Qed.

(** The trimmed text is the part before the first NUL. *)
Lemma TrimStr_prefix s : TrimStr s = s \/ exists r, s = TrimStr s ++ 0 :: r.
Proof.
  induction s as [|b t IH]; cbn; auto. destruct (b =? 0) eqn:E.
  - right. exists t. replace b with 0 by lia. reflexivity.
  - destruct IH as [->|[r Hr]]; auto. right. exists r. cbn. congruence.
Qed.

Lemma TrimStr_fit w s : no_nul s -> (length s <= w)%nat -> TrimStr (fit w s) = s.
Proof. intros. rewrite fit_short by auto. apply TrimStr_pad; auto. Qed.

Lemma OctetString_spec s w : 0 <= w ->
  exists r, OctetString s w = Ok r /\ zlen r = w
    /\ (zlen s <= w -> r = s ++ repeat 0 (Z.to_nat w - length s))
    /\ (w < zlen s -> r = skipn (length s - Z.to_nat w) s).
Proof.
  intros H. unfold OctetString. destruct (zlen s =? w) eqn:E.
  - exists s. assert (zlen s = w) by lia. repeat split; auto; try lia.
    intros. replace (Z.to_nat w - length s)%nat with 0%nat by (unfold zlen in *; lia).
    cbn. rewrite app_nil_r; auto.
  - destruct (w <? zlen s) eqn:E2.
    + unfold slice. replace (_ && _ && _) with true by lia.
      eexists; split; [reflexivity|].
      assert (HH: firstn (Z.to_nat (zlen s - (zlen s - w))) (skipn (Z.to_nat (zlen s - w)) s)
              = skipn (length s - Z.to_nat w) s).
      { replace (Z.to_nat (zlen s - w)) with (length s - Z.to_nat w)%nat by (unfold zlen; lia).
        apply firstn_all2. rewrite skipn_length. unfold zlen in *; lia. }
      rewrite HH. repeat split; auto; try lia.
      unfold zlen in *. rewrite skipn_length. lia.
    + eexists; split; [reflexivity|]. unfold zeros. repeat split; intros; try lia.
      * rewrite zlen_app, zlen_repeat. lia.
      * do 2 f_equal. unfold zlen in *; lia.
Qed.

(** ** Hexadecimal *)

Lemma hex_digit_table d : 0 <= d < 16 ->
  hex_digit_value (nth (Z.to_nat d) NumTable 0) = Some d.
Proof.
  intros H. assert (forallb (fun d => match hex_digit_value (nth (Z.to_nat d) NumTable 0) with
     Some e => e =? d | None => false end) (map Z.of_nat (seq 0 16)) = true) as F by reflexivity.
  rewrite forallb_forall in F. specialize (F d).
  assert (In d (map Z.of_nat (seq 0 16))) as HI.
  { apply in_map_iff. exists (Z.to_nat d). split; [lia|]. apply in_seq; lia. }
  specialize (F HI). destruct (hex_digit_value _); [f_equal; lia|discriminate].
Qed.

Lemma hex_at_value i shift : 0 <= shift -> hex_digit_value (hex_at i shift) = Some (i / 2 ^ shift mod 16).
Proof.
  intros. unfold hex_at. rewrite Z.shiftr_div_pow2 by auto.
  change 15 with (Z.ones 4). rewrite Z.land_ones by lia.
  change (2 ^ 4) with 16. apply hex_digit_table. lia.
Qed.

Lemma hex_string_value i n : forall a,
  0 <= i ->
  hex_value_acc a (map (hex_at i) (map (fun k => 4 * Z.of_nat k) (rev (seq 0 n))))
  = Some (a * 16 ^ Z.of_nat n + i mod 16 ^ Z.of_nat n).
Proof.
  induction n as [|n IH]; intros a Hi.
  - cbn. rewrite Z.mod_1_r. f_equal; lia.
  - rewrite seq_S, rev_app_distr. cbn [rev app map hex_value_acc Nat.add].
    rewrite hex_at_value by lia. rewrite IH by auto. f_equal.
    replace (Z.of_nat (S n)) with (Z.of_nat n + 1) by lia.
    rewrite (Z.pow_add_r 16) by lia. change (16 ^ 1) with 16.
    replace (2 ^ (4 * Z.of_nat n)) with (16 ^ Z.of_nat n)
      by (change 16 with (2 ^ 4); rewrite <- Z.pow_mul_r by lia; reflexivity).
    rewrite Z.rem_mul_r by lia. lia.
Qed.

Lemma Uint64HexString_value i : 0 <= i < 2 ^ 64 ->
  hex_value (Uint64HexString i) = Some i /\ zlen (Uint64HexString i) = 16.
Proof.
  intros H. split; [|reflexivity]. unfold hex_value, Uint64HexString.
  pose proof (hex_string_value i 16 0 ltac:(lia)) as E. cbn [map rev seq app Nat.add] in E.
  cbn [Z.of_nat Z.mul Pos.of_succ_nat Pos.succ Pos.mul] in E.
  cbn [map] in E |- *. rewrite E. f_equal. cbn [Z.mul Z.add].
  apply Z.mod_small. cbn in *; lia.
Qed.

Lemma Uint32HexString_value i : 0 <= i < 2 ^ 32 ->
  hex_value (Uint32HexString i) = Some i /\ zlen (Uint32HexString i) = 8.
Proof.
  intros H. split; [|reflexivity]. unfold hex_value, Uint32HexString.
  pose proof (hex_string_value i 8 0 ltac:(lia)) as E. cbn [map rev seq app Nat.add] in E.
  cbn [Z.of_nat Z.mul Pos.of_succ_nat Pos.succ Pos.mul] in E.
  cbn [map] in E |- *. rewrite E. f_equal. cbn [Z.mul Z.add].
  apply Z.mod_small. cbn in *; lia.
Qed.

(** ** Decimal *)

Lemma dec_value_snoc s c : dec_value (s ++ [c]) = dec_value s * 10 + (c - 48).
Proof. unfold dec_value; rewrite fold_left_app; reflexivity. Qed.

Lemma dec_fuel_spec k : forall n, 0 <= n < 10 ^ Z.of_nat k -> (0 < k)%nat ->
  dec_value (dec_fuel k n) = n /\ Forall is_digit (dec_fuel k n)
  /\ (1 <= length (dec_fuel k n) <= k)%nat
  /\ (forall m, (1 <= m)%nat -> n < 10 ^ Z.of_nat m -> (length (dec_fuel k n) <= m)%nat).
Proof.
  induction k as [|k IH]; intros n Hn Hk; [lia|].
  cbn [dec_fuel]. destruct (n <? 10) eqn:E.
  - split; [unfold dec_value; cbn [fold_left]; lia|]. split.
    { constructor; [unfold is_digit; lia|constructor]. }
    cbn [length]. split; [lia|]. intros; lia.
  - destruct k as [|k].
    { change (10 ^ Z.of_nat 1) with 10 in Hn. lia. }
    assert (0 <= n / 10 < 10 ^ Z.of_nat (S k)).
    { replace (Z.of_nat (S (S k))) with (Z.of_nat (S k) + 1) in Hn by lia.
      rewrite Z.pow_add_r in Hn by lia. lia. }
    destruct (IH (n / 10) ltac:(auto) ltac:(lia)) as (V & D & L & M).
    rewrite dec_value_snoc, V, app_length. cbn [length].
    split; [lia|]. split.
    { apply Forall_app; split; auto. constructor; [unfold is_digit; lia|constructor]. }
    split; [lia|].
    intros m Hm Hlt. destruct m as [|m]; [lia|]. destruct m as [|m].
    { change (10 ^ Z.of_nat 1) with 10 in Hlt. lia. }
    specialize (M (S m) ltac:(lia)).
    replace (Z.of_nat (S (S m))) with (Z.of_nat (S m) + 1) in Hlt by lia.
    rewrite Z.pow_add_r in Hlt by lia.
    assert (n / 10 < 10 ^ Z.of_nat (S m)) by lia. specialize (M H0). lia.
Qed.

Lemma dec_value_zeros n s : dec_value (repeat 48 n ++ s) = dec_value s.
Proof.
  unfold dec_value. induction n; cbn [repeat app fold_left]; auto.
Qed.

Lemma Forall_digit_48 n : Forall is_digit (repeat 48 n).
Proof. induction n; cbn; constructor; auto; unfold is_digit; lia. Qed.

Lemma TimeStamp2Str_spec t : 0 <= t < 2 ^ 32 ->
  zlen (TimeStamp2Str t) = 10 /\ Forall is_digit (TimeStamp2Str t) /\ dec_value (TimeStamp2Str t) = t.
Proof.
  intros H. unfold TimeStamp2Str, FormatInt. replace (t <? 0) with false by lia.
  assert (B1 : 2 ^ 32 <= 10 ^ Z.of_nat 20) by (vm_compute; discriminate).
  assert (B2 : 2 ^ 32 <= 10 ^ Z.of_nat 10) by (vm_compute; discriminate).
  destruct (dec_fuel_spec 20 t) as (V & D & L & M); [lia|lia|].
  specialize (M 10%nat ltac:(lia) ltac:(lia)).
  rewrite dec_value_zeros, V. split; [|split; auto].
  - rewrite zlen_app, zlen_repeat. unfold zlen. lia.
  - apply Forall_app; split; auto using Forall_digit_48.
Qed.

Lemma IntToFixStr_wide i l : 0 <= i < 10 ^ 20 -> 1 <= l -> i < 10 ^ l ->
  exists s, IntToFixStr i l = Ok s /\ zlen s = l /\ Forall is_digit s /\ dec_value s = i.
Proof.
  intros Hb Hl Hlt. unfold IntToFixStr, FormatInt. replace (i <? 0) with false by lia.
  change 20 with (Z.of_nat 20) in Hb.
  destruct (dec_fuel_spec 20 i Hb ltac:(lia)) as (V & D & L & M).
  specialize (M (Z.to_nat l) ltac:(lia)). rewrite Z2Nat.id in M by lia. specialize (M Hlt).
  set (si := dec_fuel 20 i) in *. destruct (zlen si =? l) eqn:E.
  - exists si. repeat split; auto; lia.
  - unfold slice. rewrite !zlen_app, zlen_repeat. rewrite Z2Nat.id by lia.
    pose proof (zlen_nonneg si).
    replace (_ && _ && _) with true by lia. eexists; split; [reflexivity|].
    replace (Z.to_nat (l + zlen si - (l + zlen si - l))) with (Z.to_nat l) by lia.
    replace (Z.to_nat (l + zlen si - l)) with (length si) by (unfold zlen; lia).
    assert (HR : skipn (length si) (repeat 48 (Z.to_nat l) ++ si)
             = repeat 48 (Z.to_nat l - length si) ++ si).
    { replace (Z.to_nat l) with (length si + (Z.to_nat l - length si))%nat at 1 by lia.
      rewrite repeat_app, <- app_assoc, skipn_app, repeat_length, Nat.sub_diag.
      rewrite skipn_all2 by (rewrite repeat_length; lia). reflexivity. }
    rewrite HR. rewrite firstn_all2 by (rewrite app_length, repeat_length; lia).
    rewrite dec_value_zeros, zlen_app, zlen_repeat. repeat split; auto.
    + unfold zlen; lia.
    + apply Forall_app; split; auto using Forall_digit_48.
Qed.

Lemma IntToFixStr_spec i l : 0 <= i -> 1 <= l <= 19 -> i < 10 ^ l ->
  exists s, IntToFixStr i l = Ok s /\ zlen s = l /\ Forall is_digit s /\ dec_value s = i.
Proof.
  intros Hi Hl Hlt. apply IntToFixStr_wide; auto; [|lia].
  split; auto. eapply Z.lt_le_trans; [apply Hlt|]. apply Z.pow_le_mono_r; lia.
Qed.

Lemma dec_value_inj : forall s t, length s = length t -> Forall is_digit s -> Forall is_digit t ->
  dec_value s = dec_value t -> s = t.
Proof.
  induction s as [|c s IH] using rev_ind; intros t Hl Hs Ht E.
  - destruct t; auto; discriminate.
  - destruct t as [|d t _] using rev_ind; [rewrite app_length in Hl; cbn in Hl; lia|].
    rewrite !dec_value_snoc in E. rewrite !app_length in Hl. cbn in Hl.
    apply Forall_app in Hs as [Hs Hc]. apply Forall_app in Ht as [Ht Hd].
    inversion Hc; inversion Hd; subst. unfold is_digit in *.
    assert (c = d) by lia. subst. f_equal. apply IH; auto; lia.
Qed.

(** ** BCD *)

Lemma u8_small x : 0 <= x < 256 -> u8 x = x.
Proof. intros; unfold u8; apply Z.mod_small; auto. Qed.

Lemma bcd_nibble_range c : 0 <= bcd_nibble c <= 9.
Proof. unfold bcd_nibble, u8. destruct (9 <? _) eqn:E; lia. Qed.

Lemma bcd_nibble_digit d : 0 <= d <= 9 -> bcd_nibble (48 + d) = d.
Proof.
  intros. unfold bcd_nibble. replace (48 + d - 48) with d by lia. rewrite u8_small by lia.
  destruct (9 <? d) eqn:E; lia.
Qed.

Lemma lor_nibbles h l : 0 <= h <= 15 -> 0 <= l <= 15 -> Z.lor (u8 (h * 16)) l = h * 16 + l.
Proof.
  intros Hh Hl. rewrite u8_small by lia.
  assert (forallb (fun h => forallb (fun l => Z.lor (h * 16) l =? h * 16 + l) (map Z.of_nat (seq 0 16)))
     (map Z.of_nat (seq 0 16)) = true) as F by (vm_compute; reflexivity).
  rewrite forallb_forall in F.
  assert (forall d, 0 <= d <= 15 -> In d (map Z.of_nat (seq 0 16))) as HI.
  { intros d Hd. apply in_map_iff. exists (Z.to_nat d). split; [lia|]. apply in_seq; lia. }
  specialize (F h (HI h Hh)). rewrite forallb_forall in F. specialize (F l (HI l Hl)). lia.
Qed.

Lemma packed_length s b : packed_bcd s b -> length s = (2 * length b)%nat.
Proof. induction 1; cbn; lia. Qed.

Lemma StoBcd_loop_packed s b : packed_bcd s b -> forall i wb, Nat.even i = true ->
  StoBcd_loop i s 0 0 wb = wb ++ b.
Proof.
  induction 1 as [|h l s b Hh Hl HP IH]; intros i wb Hi.
  - cbn. rewrite app_nil_r; auto.
  - cbn [StoBcd_loop]. rewrite Hi. rewrite Nat.even_succ, <- Nat.negb_even, Hi. cbn [negb].
    rewrite !bcd_nibble_digit by lia. rewrite lor_nibbles by lia.
    rewrite IH by (cbn; auto). rewrite <- app_assoc. reflexivity.
Qed.

Lemma StoBcd_packed s b : packed_bcd s b -> StoBcd s = b.
Proof. intros H. unfold StoBcd. rewrite (StoBcd_loop_packed s b H) by reflexivity. reflexivity. Qed.

Lemma BcdToString_packed s b : packed_bcd s b -> BcdToString b = s.
Proof.
  induction 1 as [|h l s b Hh Hl HP IH]; [reflexivity|].
  unfold BcdToString in *. cbn [flat_map app]. rewrite IH.
  rewrite Z.shiftr_div_pow2 by lia. change 15 with (Z.ones 4). rewrite Z.land_ones by lia.
  change (2 ^ 4) with 16.
  replace ((h * 16 + l) / 16) with h by lia. replace ((h * 16 + l) mod 16) with l by lia.
  unfold bcd_char. destruct (9 <? h) eqn:E1; [lia|]. destruct (9 <? l) eqn:E2; [lia|].
  f_equal; [lia|]. f_equal; lia.
Qed.

(** Every even-length digit string has a packed form. *)
Lemma packed_exists : forall n s, length s = (2 * n)%nat -> Forall is_digit s ->
  exists b, packed_bcd s b /\ length b = n.
Proof.
  induction n; intros s Hl Hd.
  - destruct s; [|discriminate]. exists []. split; constructor.
  - destruct s as [|c [|d s]]; cbn in Hl; try lia.
    inversion Hd as [|? ? Hc Hd']; subst. inversion Hd' as [|? ? Hdd Hs]; subst.
    destruct (IHn s ltac:(lia) Hs) as (b & Hb & Hlb).
    exists ((c - 48) * 16 + (d - 48) :: b). split; [|cbn; lia]. unfold is_digit in *.
    replace c with (48 + (c - 48)) at 1 by lia. replace d with (48 + (d - 48)) at 1 by lia.
    constructor; auto; lia.
Qed.

(** Both nibbles of a byte are decimal. *)
Definition bcd_byte (x : Z) : Prop := exists h l, 0 <= h <= 9 /\ 0 <= l <= 9 /\ x = h * 16 + l.

Lemma StoBcd_loop_nibbles : forall w i h l wb, 0 <= h <= 9 -> Forall bcd_byte wb ->
  Forall bcd_byte (StoBcd_loop i w h l wb).
Proof.
  induction w as [|c t IH]; intros i h l wb Hh Hw; cbn [StoBcd_loop].
  - destruct (h =? 0); auto. apply Forall_app; split; auto. constructor; [|constructor].
    exists h, 0. rewrite u8_small by lia. lia.
  - destruct (Nat.even i).
    + apply IH; auto using bcd_nibble_range.
    + apply IH; [lia|]. apply Forall_app; split; auto. constructor; [|constructor].
      pose proof (bcd_nibble_range c). exists h, (bcd_nibble c). rewrite lor_nibbles by lia. lia.
Qed.

Lemma StoBcd_nibbles w : Forall bcd_byte (StoBcd w).
Proof. apply StoBcd_loop_nibbles; [lia|constructor]. Qed.

Lemma StoBcd_loop_length : forall n w wb i, length w = (2 * n)%nat -> Nat.even i = true ->
  length (StoBcd_loop i w 0 0 wb) = (length wb + n)%nat.
Proof.
  induction n; intros w wb i Hl Hi.
  - destruct w; [|discriminate]. cbn. lia.
  - destruct w as [|c [|d w]]; cbn in Hl; try lia. cbn [StoBcd_loop]. rewrite Hi.
    rewrite Nat.even_succ, <- Nat.negb_even, Hi. cbn [negb].
    rewrite IHn by (cbn; auto; lia). rewrite app_length. cbn. lia.
Qed.

Lemma StoBcd_length w n : length w = (2 * n)%nat -> length (StoBcd w) = n.
Proof. intros. unfold StoBcd. rewrite (StoBcd_loop_length n); auto. Qed.

(** ** When splitting is lossless *)

Lemma nparts_full len b : 0 < b -> 0 < len ->
  b * (nparts len b - 1) = if len mod b =? 0 then len - b else len - len mod b.
Proof.
  intros. unfold nparts. pose proof (Z.div_mod len b ltac:(lia)).
  destruct (len mod b =? 0) eqn:E; nia.
Qed.

Lemma split_lossless_iff g content pkgLen parts : 6 < pkgLen -> pkgLen <= zlen content ->
  ToTPUDHISlices g content pkgLen = Ok parts ->
  let t := zlen content mod (pkgLen - 6) in
  (reassemble parts = content
   <-> t <> 0 /\ skipn (Z.to_nat (zlen content - t)) content = firstn (Z.to_nat t) content).
Proof.
  intros H1 H2 E t. rewrite (split_reassemble _ _ _ _ H1 H2 E).
  rewrite nparts_full by lia. fold t.
  pose proof (Z.mod_pos_bound (zlen content) (pkgLen - 6) ltac:(lia)) as B. fold t in B.
  destruct (t =? 0) eqn:Et.
  - assert (t = 0) as -> by lia. split; [|intros [? _]; lia]. intros R.
    exfalso. apply (f_equal (@length Z)) in R. rewrite app_length, !firstn_length in R.
    unfold zlen in *. lia.
  - split.
    + intros R. split; [lia|]. apply (f_equal (skipn (Z.to_nat (zlen content - t)))) in R.
      assert (L : length (firstn (Z.to_nat (zlen content - t)) content) = Z.to_nat (zlen content - t))
        by (rewrite firstn_length; unfold zlen in *; lia).
      rewrite skipn_app, L, Nat.sub_diag in R. rewrite skipn_all2 in R by lia. symmetry. exact R.
    + intros [_ R]. rewrite <- R. apply firstn_skipn.
Qed.

Lemma OctetString_trim s w r : no_nul s -> zlen s <= w -> OctetString s w = Ok r ->
  TrimStr r = s /\ TrimStr (TrimStr r) = TrimStr r.
Proof.
  intros Hn Hw E. destruct (OctetString_spec s w) as (r' & E' & _ & H & _).
  { pose proof (zlen_nonneg s); lia. }
  rewrite E in E'. injection E' as <-. rewrite (H Hw).
  split; [apply TrimStr_pad; auto|]. apply TrimStr_idem.
Qed.
