(** * SeqProofs: proofs about the identifier generators. *)
From Verif Require Import Base UtilsModel UtilsProofs SpecText SeqModel.
From Coq Require Import Sorted Znumtheory.

(** ** Bit fields *)

Lemma land_disjoint a n b : 0 <= n -> 0 <= b < 2 ^ n -> Z.land (a * 2 ^ n) b = 0.
Proof.
  intros Hn Hb. apply Z.bits_inj'. intros m Hm. rewrite Z.land_spec, Z.bits_0.
  destruct (Z_lt_ge_dec m n).
  - rewrite Z.mul_pow2_bits_low by lia. reflexivity.
  - replace b with (b mod 2 ^ n) by (apply Z.mod_small; lia).
    rewrite Z.mod_pow2_bits_high by lia. apply andb_false_r.
Qed.

Lemma lor_disjoint a n b : 0 <= n -> 0 <= b < 2 ^ n -> Z.lor (a * 2 ^ n) b = a * 2 ^ n + b.
Proof.
  intros Hn Hb. pose proof (land_disjoint a n b Hn Hb) as E.
  rewrite <- Z.lxor_lor by auto. symmetry. apply Z.add_nocarry_lxor; auto.
Qed.

Lemma i64_small x : 0 <= x < 2 ^ 63 -> i64 x = x.
Proof.
  intros H. unfold i64, u64. change (2 ^ 63) with 9223372036854775808 in H.
  rewrite Z.mod_small by lia. destruct (x <? _) eqn:E; lia.
Qed.
Lemma i32_small x : 0 <= x < 2 ^ 31 -> i32 x = x.
Proof.
  intros H. unfold i32, u32. change (2 ^ 31) with 2147483648 in H.
  rewrite Z.mod_small by lia. destruct (x <? _) eqn:E; lia.
Qed.

Lemma i32_mod x k : 0 <= k <= 31 -> i32 x mod 2 ^ k = x mod 2 ^ k.
Proof.
  intros Hk. unfold i32, u32.
  assert (E : 4294967296 = 2 ^ (32 - k) * 2 ^ k).
  { rewrite <- Z.pow_add_r by lia. replace (32 - k + k) with 32 by lia. reflexivity. }
  assert (P : 0 < 2 ^ k) by (apply Z.pow_pos_nonneg; lia).
  assert (M : (x mod 4294967296) mod 2 ^ k = x mod 2 ^ k).
  { rewrite E. symmetry. apply Znumtheory.Zmod_div_mod; try lia.
    exists (2 ^ (32 - k)). reflexivity. }
  destruct (_ <? _); auto.
  rewrite E. rewrite E in M. rewrite <- M.
  replace (x mod (2 ^ (32 - k) * 2 ^ k) - 2 ^ (32 - k) * 2 ^ k)
    with (x mod (2 ^ (32 - k) * 2 ^ k) + (- 2 ^ (32 - k)) * 2 ^ k) by ring.
  apply Z.mod_add. lia.
Qed.

(** ** CycleSequence *)

Lemma cyc_low d w q : 0 <= q < 2 ^ 26 ->
  Z.land (Z.lor (Z.lor (shl32 d 31) (shl32 w 28)) q) 67108863 = q.
Proof.
  intros Hq. change 67108863 with (Z.ones 26). rewrite !Z.land_lor_distr_l.
  rewrite !Z.land_ones by lia. unfold shl32. rewrite !i32_mod by lia.
  rewrite !Z.shiftl_mul_pow2 by lia.
  replace (d * 2 ^ 31) with ((d * 2 ^ 5) * 2 ^ 26) by (rewrite <- Z.mul_assoc, <- Z.pow_add_r by lia; reflexivity).
  replace (w * 2 ^ 28) with ((w * 2 ^ 2) * 2 ^ 26) by (rewrite <- Z.mul_assoc, <- Z.pow_add_r by lia; reflexivity).
  rewrite !Z.mod_mul by (cbn; lia). rewrite Z.mod_small by lia. reflexivity.
Qed.

Lemma cyc_seq_next s : Z.land (i32 (cy_seq s + 1)) 67108863 = (cy_seq s + 1) mod 2 ^ 26.
Proof. change 67108863 with (Z.ones 26). rewrite Z.land_ones by lia. apply i32_mod. lia. Qed.

Lemma cyc_run_nth : forall n s i v, nth_error (run_gen cyc_next n s) i = Some v ->
  v = Z.lor (Z.lor (shl32 (cy_dc s) 31) (shl32 (cy_worker s) 28)) ((cy_seq s + 1 + Z.of_nat i) mod 2 ^ 26).
Proof.
  induction n; intros s i v H; cbn [run_gen] in H; [destruct i; discriminate|].
  unfold cyc_next in H at 1. rewrite cyc_seq_next in H. destruct i; cbn [nth_error] in H.
  - injection H as <-. rewrite Z.add_0_r. reflexivity.
  - apply IHn in H. cbn [cy_dc cy_worker cy_seq] in H. rewrite H. f_equal.
    rewrite <- Z.add_assoc, Zplus_mod_idemp_l. f_equal. lia.
Qed.

Lemma cyc_same_iff n m s i j vi vj :
  nth_error (run_gen cyc_next n s) i = Some vi ->
  nth_error (run_gen cyc_next m s) j = Some vj ->
  (vi = vj <-> (Z.of_nat i - Z.of_nat j) mod 2 ^ 26 = 0).
Proof.
  intros Hi Hj. apply cyc_run_nth in Hi, Hj.
  assert (P : 0 < 2 ^ 26) by (cbn; lia).
  split.
  - intros E. subst vi vj. apply (f_equal (fun x => Z.land x 67108863)) in E.
    rewrite !cyc_low in E by (apply Z.mod_pos_bound; auto).
    replace (Z.of_nat i - Z.of_nat j) with ((cy_seq s + 1 + Z.of_nat i) - (cy_seq s + 1 + Z.of_nat j)) by lia.
    rewrite Zminus_mod, E, Z.sub_diag. reflexivity.
  - intros E. subst vi vj. f_equal.
    apply Z.mod_divide in E; [|lia]. destruct E as [k E].
    replace (cy_seq s + 1 + Z.of_nat i) with (cy_seq s + 1 + Z.of_nat j + k * 2 ^ 26) by lia.
    apply Z.mod_add. lia.
Qed.

Lemma cyc_unique n s i j vi vj :
  nth_error (run_gen cyc_next n s) i = Some vi ->
  nth_error (run_gen cyc_next n s) j = Some vj ->
  i <> j -> Z.abs (Z.of_nat i - Z.of_nat j) < 2 ^ 26 -> vi <> vj.
Proof.
  intros Hi Hj Hne Hlt E. apply (cyc_same_iff n n s i j vi vj Hi Hj) in E.
  apply Z.mod_divide in E; [|cbn; lia]. destruct E as [k E]. nia.
Qed.

(** High part of an id: bits 28..31 as an unsigned number. *)
Lemma cyc_base_eq d w q : 0 <= q < 2 ^ 26 -> 0 <= w <= 7 -> 0 <= d <= 3 ->
  u32 (Z.lor (Z.lor (shl32 d 31) (shl32 w 28)) q) = ((d mod 2) * 8 + w) * 2 ^ 28 + q.
Proof.
  intros Hq Hw Hd.
  assert (E : Z.lor (shl32 d 31) (shl32 w 28)
     = (if d mod 2 =? 0 then w else w - 8) * 2 ^ 28).
  { assert (F : forallb (fun d => forallb (fun w =>
        Z.lor (shl32 d 31) (shl32 w 28) =? (if d mod 2 =? 0 then w else w - 8) * 2 ^ 28)
        [0;1;2;3;4;5;6;7]) [0;1;2;3] = true) by (vm_compute; reflexivity).
    rewrite forallb_forall in F. assert (In d [0;1;2;3]) as Hi by (cbn; lia).
    specialize (F d Hi). rewrite forallb_forall in F.
    assert (In w [0;1;2;3;4;5;6;7]) as Hi2 by (cbn; lia). specialize (F w Hi2). lia. }
  rewrite E. rewrite lor_disjoint by (change (2 ^ 28) with 268435456; change (2^26) with 67108864 in Hq; lia).
  unfold u32. change (2 ^ 28) with 268435456. change (2^26) with 67108864 in Hq.
  destruct (d mod 2 =? 0) eqn:Ed.
  - rewrite Z.mod_small by lia. lia.
  - assert (d mod 2 = 1) by lia. symmetry. apply Z.mod_unique with (-1); lia.
Qed.

Lemma cyc_nodes_collide_iff d w d' w' : 0 <= d <= 3 -> 0 <= d' <= 3 -> 0 <= w <= 7 -> 0 <= w' <= 7 ->
  ((exists v n m, In v (run_gen cyc_next n (NewCycle d w)) /\ In v (run_gen cyc_next m (NewCycle d' w')))
   <-> d mod 2 = d' mod 2 /\ w = w').
Proof.
  intros Hd Hd' Hw Hw'. split.
  - intros (v & n & m & H1 & H2). apply In_nth_error in H1 as [i H1], H2 as [j H2].
    apply cyc_run_nth in H1, H2. cbn [NewCycle cy_dc cy_worker cy_seq] in H1, H2.
    assert (P : 0 < 2 ^ 26) by (cbn; lia).
    pose proof (Z.mod_pos_bound (0 + 1 + Z.of_nat i) (2^26) P) as B1.
    pose proof (Z.mod_pos_bound (0 + 1 + Z.of_nat j) (2^26) P) as B2.
    pose proof (cyc_base_eq d w _ B1 Hw Hd) as E1. pose proof (cyc_base_eq d' w' _ B2 Hw' Hd') as E2.
    rewrite <- H1 in E1. rewrite <- H2 in E2. rewrite E1 in E2.
    change (2 ^ 28) with 268435456 in E2. change (2 ^ 26) with 67108864 in *. lia.
  - intros [Ed Ew]. subst w'.
    assert (R : forall s, run_gen cyc_next 1 s = [snd (cyc_next s)]) by reflexivity.
    exists (snd (cyc_next (NewCycle d w))), 1%nat, 1%nat. rewrite !R.
    split; [left; reflexivity|]. left.
    assert (F : forallb (fun d => forallb (fun d' => forallb (fun w =>
       negb (d mod 2 =? d' mod 2) || (snd (cyc_next (NewCycle d' w)) =? snd (cyc_next (NewCycle d w))))
        [0;1;2;3;4;5;6;7]) [0;1;2;3]) [0;1;2;3] = true) by (vm_compute; reflexivity).
    rewrite forallb_forall in F. assert (In d [0;1;2;3]) as Hi by (cbn; lia).
    specialize (F d Hi). rewrite forallb_forall in F. assert (In d' [0;1;2;3]) as Hi' by (cbn; lia).
    specialize (F d' Hi'). rewrite forallb_forall in F.
    assert (In w [0;1;2;3;4;5;6;7]) as Hi2 by (cbn; lia). specialize (F w Hi2).
    apply orb_true_iff in F as [F|F]; [exfalso; lia|].
    apply Z.eqb_eq in F. exact F.
Qed.

(** ** Snowflake 64 *)

Lemma sf_pack_val t d w q : 0 <= t < 2 ^ 41 -> 0 <= d < 8 -> 0 <= w < 128 -> 0 <= q < 4096 ->
  sf_pack t d w q = t * 2 ^ 22 + d * 2 ^ 19 + w * 2 ^ 12 + q.
Proof.
  intros Ht Hd Hw Hq. unfold sf_pack, shl64. rewrite !Z.shiftl_mul_pow2 by lia.
  change (2 ^ 22) with 4194304. change (2 ^ 19) with 524288. change (2 ^ 12) with 4096.
  change (2 ^ 41) with 2199023255552 in Ht.
  rewrite !i64_small by (change (2 ^ 63) with 9223372036854775808; lia).
  change 4194304 with (2 ^ 22). rewrite (lor_disjoint t 22) by (change (2 ^ 22) with 4194304; lia).
  replace (t * 2 ^ 22 + d * 524288) with ((t * 8 + d) * 2 ^ 19) by (change (2 ^ 22) with 4194304; change (2 ^ 19) with 524288; lia).
  rewrite lor_disjoint by (change (2 ^ 19) with 524288; lia).
  replace ((t * 8 + d) * 2 ^ 19 + w * 4096) with (((t * 8 + d) * 128 + w) * 2 ^ 12)
    by (change (2 ^ 19) with 524288; change (2 ^ 12) with 4096; lia).
  rewrite lor_disjoint by (change (2 ^ 12) with 4096; lia).
  change (2 ^ 22) with 4194304. change (2 ^ 12) with 4096. lia.
Qed.

Lemma sf_parse_pack t d w q : 0 <= t < 2 ^ 41 -> 0 <= d < 8 -> 0 <= w < 128 -> 0 <= q < 4096 ->
  sf_parse (sf_pack t d w q) = Sf (t + sf_epoch) w d q.
Proof.
  intros Ht Hd Hw Hq. rewrite sf_pack_val by auto. unfold sf_parse.
  change (2 ^ 41) with 2199023255552 in Ht.
  rewrite !Z.shiftr_div_pow2 by lia. change 127 with (Z.ones 7). change 7 with (Z.ones 3) at 2.
  change 4095 with (Z.ones 12). rewrite !Z.land_ones by lia.
  change (2 ^ 22) with 4194304. change (2 ^ 19) with 524288. change (2 ^ 12) with 4096.
  change (2 ^ 7) with 128. change (2 ^ 3) with 8.
  f_equal; lia.
Qed.

(** A clock trace that never decreases, starting at or after [lo]. *)
Fixpoint nondecr_from (lo : Z) (clk : list Z) : Prop :=
  match clk with
  | [] => True
  | x :: t => lo <= x /\ nondecr_from x t
  end.

Lemma nondecr_weaken lo lo' clk : lo' <= lo -> nondecr_from lo clk -> nondecr_from lo' clk.
Proof. destruct clk; cbn; intros; [auto|]. intuition lia. Qed.

Lemma spin_spec b : forall clk now rest lo hi, nondecr_from lo clk -> Forall (fun x => x <= hi) clk ->
  spin b clk = Some (now, rest) -> b < now /\ now <= hi /\ nondecr_from now rest /\ Forall (fun x => x <= hi) rest.
Proof.
  induction clk as [|x clk IH]; cbn; intros now rest lo hi Hn Hf H; [discriminate|].
  destruct Hn as [Hlo Hn]. inversion Hf; subst.
  destruct (x <=? b) eqn:E.
  - eapply IH; eauto.
  - injection H as <- <-. repeat split; auto. lia.
Qed.

Lemma land_4095 q : Z.land q 4095 = q mod 4096.
Proof. change 4095 with (Z.ones 12). rewrite Z.land_ones by lia. reflexivity. Qed.

(** State invariant for a monotone clock. *)
Definition sf_inv (s : sf) : Prop :=
  0 <= sf_dc s < 8 /\ 0 <= sf_worker s < 128 /\ 0 <= sf_seq s < 4096.

Lemma sf_next_mono s clk s' v rest :
  sf_inv s -> nondecr_from (sf_ts s) clk ->
  Forall (fun x => sf_epoch <= x) clk -> Forall (fun x => x <= sf_epoch + sf_timestampMax) clk ->
  sf_next s clk = Some (s', v, rest) ->
  sf_inv s' /\ sf_dc s' = sf_dc s /\ sf_worker s' = sf_worker s
  /\ sf_epoch <= sf_ts s' <= sf_epoch + sf_timestampMax
  /\ nondecr_from (sf_ts s') rest /\ Forall (fun x => sf_epoch <= x) rest
  /\ Forall (fun x => x <= sf_epoch + sf_timestampMax) rest
  /\ v = sf_pack (sf_ts s' - sf_epoch) (sf_dc s) (sf_worker s) (sf_seq s')
  /\ (sf_ts s < sf_ts s' \/ (sf_ts s = sf_ts s' /\ sf_seq s < sf_seq s')).
Proof.
  intros (Id & Iw & Iq) Hn He Hm H. unfold sf_next in H.
  destruct clk as [|now0 clk]; [discriminate|].
  destruct Hn as [Hlo Hn]. inversion He as [|? ? He0 He']; subst. inversion Hm as [|? ? Hm0 Hm']; subst.
  assert (Hto : forall now, now <= sf_epoch + sf_timestampMax -> (sf_timestampMax <? now - sf_epoch) = false) by (intros; lia).
  destruct (sf_ts s =? now0) eqn:E0.
  - unfold sf_sequenceMask in H. rewrite land_4095 in H.
    destruct ((sf_seq s + 1) mod 4096 =? 0) eqn:E1.
    + destruct (spin (sf_ts s) clk) as [[now rest']|] eqn:Es; [|discriminate].
      assert (Hn' : nondecr_from now0 clk) by auto.
      pose proof (spin_spec _ _ _ _ _ _ Hn' Hm' Es) as (S1 & S2 & S3 & S4).
      rewrite Hto in H by lia. injection H as <- <- <-. unfold sf_inv. cbn [sf_ts sf_dc sf_worker sf_seq].
      replace ((sf_seq s + 1) mod 4096) with 0 by lia.
      assert (Forall (fun x => sf_epoch <= x) rest').
      { apply Forall_forall. intros x Hx. assert (In x clk).
        { clear - Es Hx. revert Es. induction clk as [|y clk IH]; cbn; [discriminate|].
          destruct (y <=? sf_ts s); intros Es; [right; auto|]. injection Es as <- <-. auto. }
        rewrite Forall_forall in He'. auto. }
      repeat split; auto; try lia.
    + rewrite Hto in H by lia. injection H as <- <- <-. unfold sf_inv.
      cbn [sf_ts sf_dc sf_worker sf_seq]. repeat split; auto; try lia.
  - rewrite Hto in H by lia. injection H as <- <- <-. unfold sf_inv.
    cbn [sf_ts sf_dc sf_worker sf_seq]. repeat split; auto; try lia.
Qed.

Lemma sf_run_ids : forall n s clk, sf_inv s -> nondecr_from (sf_ts s) clk ->
  Forall (fun x => sf_epoch <= x) clk -> Forall (fun x => x <= sf_epoch + sf_timestampMax) clk ->
  StronglySorted Z.lt (run_clk sf_next n s clk)
  /\ Forall (fun v => (sf_epoch <= sf_ts s -> sf_pack (sf_ts s - sf_epoch) (sf_dc s) (sf_worker s) (sf_seq s) < v)
      /\ exists t q, 0 <= t <= sf_timestampMax /\ 0 <= q < 4096 /\ v = sf_pack t (sf_dc s) (sf_worker s) q)
      (run_clk sf_next n s clk).
Proof.
  induction n; intros s clk Hi Hn He Hm; cbn [run_clk]; [split; constructor|].
  destruct (sf_next s clk) as [[[s' v] rest]|] eqn:E; [|split; constructor].
  pose proof (sf_next_mono _ _ _ _ _ Hi Hn He Hm E) as (I' & Ed & Ew & Et & N' & E' & M' & Hv & Hlt).
  destruct (IHn s' rest I' N' E' M') as [IS IF].
  assert (T41 : sf_timestampMax < 2 ^ 41) by reflexivity.
  pose proof I' as (Id' & Iw' & Iq').
  split.
  - constructor; auto. eapply Forall_impl; [|apply IF]. cbn beta. intros a [Ha _].
    specialize (Ha (proj1 Et)). rewrite Ed, Ew in Ha. rewrite Hv. exact Ha.
  - assert (PV : v = (sf_ts s' - sf_epoch) * 2 ^ 22 + sf_dc s * 2 ^ 19 + sf_worker s * 2 ^ 12 + sf_seq s').
    { rewrite Hv. apply sf_pack_val; try (rewrite <- ?Ed, <- ?Ew; auto); try lia. }
    constructor.
    + split.
      * intros Hge. destruct Hi as (Id & Iw & Iq).
        rewrite sf_pack_val by lia. rewrite PV.
        change (2 ^ 22) with 4194304. change (2 ^ 19) with 524288. change (2 ^ 12) with 4096. lia.
      * exists (sf_ts s' - sf_epoch), (sf_seq s'). repeat split; auto; lia.
    + eapply Forall_impl; [|apply IF]. cbn beta. intros a [Ha (t & q & Ht & Hq & Ea)]. split.
      * intros Hge. specialize (Ha (proj1 Et)). rewrite Ed, Ew in Ha. rewrite <- Hv in Ha.
        destruct Hi as (Id & Iw & Iq). rewrite sf_pack_val by lia.
        rewrite PV in Ha. change (2 ^ 22) with 4194304 in *. change (2 ^ 19) with 524288 in *. change (2 ^ 12) with 4096 in *. lia.
      * exists t, q. rewrite Ed, Ew in Ea. auto.
Qed.

(** A call returns as soon as the clock passes the generator's timestamp. *)
Lemma spin_live b : forall clk, (exists x, In x clk /\ b < x) -> exists r, spin b clk = Some r.
Proof.
  induction clk as [|y clk IH]; intros (x & Hx & Hb); [destruct Hx|]. cbn.
  destruct (y <=? b) eqn:E; [|eauto]. destruct Hx as [->|Hx]; [lia|]. apply IH; eauto.
Qed.

Lemma sf_live s now clk : (exists x, In x clk /\ sf_ts s < x) ->
  exists r, sf_next s (now :: clk) = Some r.
Proof.
  intros H. unfold sf_next. apply spin_live in H as [[x rest] E]. rewrite E.
  repeat match goal with |- context[if ?b then _ else _] => destruct b end; eauto.
Qed.

Lemma sf_run_strict : forall clk s, sf_ts s <> hd (sf_ts s - 1) clk -> (forall a, In a clk -> sf_epoch <= a <= sf_epoch + sf_timestampMax) ->
  StronglySorted Z.lt clk ->
  run_clk sf_next (length clk) s clk = map (fun now => sf_pack (now - sf_epoch) (sf_dc s) (sf_worker s) 0) clk.
Proof.
  induction clk as [|x clk IH]; intros s Hne Hr Hs; [reflexivity|].
  cbn [length run_clk sf_next map hd] in *. replace (sf_ts s =? x) with false by lia.
  pose proof (Hr x ltac:(left; auto)).
  replace (sf_timestampMax <? x - sf_epoch) with false by lia.
  f_equal. inversion Hs; subst. rewrite IH; auto.
  - cbn [sf_ts]. destruct clk as [|y clk]; cbn [hd]; [lia|]. inversion H3; subst. lia.
  - intros a Ha. apply Hr. right; auto.
Qed.

Lemma sf_clock_back d w t : sf_epoch < t <= sf_epoch + sf_timestampMax ->
  run_clk sf_next 3 (NewSnowflake d w) [t; t - 1; t]
  = [sf_pack (t - sf_epoch) d w 0; sf_pack (t - 1 - sf_epoch) d w 0; sf_pack (t - sf_epoch) d w 0].
Proof.
  intros H. cbn [run_clk sf_next NewSnowflake sf_ts sf_seq sf_dc sf_worker].
  unfold sf_epoch, sf_timestampMax in *.
  replace (0 =? t) with false by lia.
  replace (2199023255551 <? t - 1577808000000) with false by lia.
  cbn [run_clk sf_next sf_ts sf_seq sf_dc sf_worker]. unfold sf_epoch, sf_timestampMax.
  replace (t =? t - 1) with false by lia.
  replace (2199023255551 <? t - 1 - 1577808000000) with false by lia.
  cbn [run_clk sf_next sf_ts sf_seq sf_dc sf_worker]. unfold sf_epoch, sf_timestampMax.
  replace (t - 1 =? t) with false by lia.
  replace (2199023255551 <? t - 1577808000000) with false by lia.
  reflexivity.
Qed.

(** ** Snowflake 32 *)

Lemma s32_pack_val t d w q : 0 <= t < 86400 -> 0 <= d < 4 -> 0 <= w < 8 -> 0 <= q < 512 ->
  s32_pack t d w q = t * 16384 + d * 4096 + w * 512 + q.
Proof.
  intros Ht Hd Hw Hq. unfold s32_pack, shl32. rewrite !Z.shiftl_mul_pow2 by lia.
  change (2 ^ 14) with 16384. change (2 ^ 12) with 4096. change (2 ^ 9) with 512.
  rewrite !i32_small by (change (2 ^ 31) with 2147483648; lia).
  change 16384 with (2 ^ 14). rewrite (lor_disjoint t 14) by (change (2 ^ 14) with 16384; lia).
  replace (t * 2 ^ 14 + d * 4096) with ((t * 4 + d) * 2 ^ 12) by (change (2 ^ 14) with 16384; change (2 ^ 12) with 4096; lia).
  rewrite lor_disjoint by (change (2 ^ 12) with 4096; lia).
  replace ((t * 4 + d) * 2 ^ 12 + w * 512) with (((t * 4 + d) * 8 + w) * 2 ^ 9)
    by (change (2 ^ 9) with 512; change (2 ^ 12) with 4096; lia).
  rewrite lor_disjoint by (change (2 ^ 9) with 512; lia).
  change (2 ^ 14) with 16384. change (2 ^ 9) with 512. lia.
Qed.

Lemma s32_parse_pack t d w q : 0 <= t < 86400 -> 0 <= d < 4 -> 0 <= w < 8 -> 0 <= q < 512 ->
  s32_parse (s32_pack t d w q) = Sf32 t d w q.
Proof.
  intros Ht Hd Hw Hq. rewrite s32_pack_val by auto. unfold s32_parse.
  rewrite !Z.shiftr_div_pow2 by lia. change 511 with (Z.ones 9).
  change 3 with (Z.ones 2) at 1. change 7 with (Z.ones 3). rewrite !Z.land_ones by lia.
  change (2 ^ 14) with 16384. change (2 ^ 12) with 4096. change (2 ^ 9) with 512.
  change (2 ^ 2) with 4. change (2 ^ 3) with 8.
  f_equal; lia.
Qed.

Definition s32_inv (s : sf32) : Prop :=
  0 <= s32_dc s < 4 /\ 0 <= s32_worker s < 8 /\ 0 <= s32_seq s < 512 /\ 0 <= s32_sec s < 86400.

Lemma land_511 q : Z.land q 511 = q mod 512.
Proof. change 511 with (Z.ones 9). rewrite Z.land_ones by lia. reflexivity. Qed.

Lemma s32_next_mono s clk s' v rest :
  s32_inv s -> nondecr_from (s32_sec s) clk -> Forall (fun x => x <= 86399) clk ->
  s32_next s clk = Some (s', v, rest) ->
  s32_inv s' /\ s32_dc s' = s32_dc s /\ s32_worker s' = s32_worker s
  /\ nondecr_from (s32_sec s') rest /\ Forall (fun x => x <= 86399) rest
  /\ v = s32_pack (s32_sec s') (s32_dc s) (s32_worker s) (s32_seq s')
  /\ (s32_sec s < s32_sec s' \/ (s32_sec s = s32_sec s' /\ s32_seq s < s32_seq s')).
Proof.
  intros (Id & Iw & Iq & It) Hn Hm H. unfold s32_next in H.
  destruct clk as [|now0 clk]; [discriminate|].
  destruct Hn as [Hlo Hn]. inversion Hm as [|? ? Hm0 Hm']; subst.
  destruct (s32_sec s =? now0) eqn:E0.
  - rewrite land_511 in H.
    destruct ((s32_seq s + 1) mod 512 =? 0) eqn:E1.
    + destruct (spin (s32_sec s) clk) as [[now rest']|] eqn:Es; [|discriminate].
      pose proof (spin_spec _ _ _ _ _ _ Hn Hm' Es) as (S1 & S2 & S3 & S4).
      injection H as <- <- <-. unfold s32_inv. cbn [s32_sec s32_dc s32_worker s32_seq].
      replace ((s32_seq s + 1) mod 512) with 0 by lia.
      repeat split; auto; try lia.
    + injection H as <- <- <-. unfold s32_inv.
      cbn [s32_sec s32_dc s32_worker s32_seq]. repeat split; auto; try lia.
  - injection H as <- <- <-. unfold s32_inv.
    cbn [s32_sec s32_dc s32_worker s32_seq]. repeat split; auto; try lia.
Qed.

Lemma s32_run_ids : forall n s clk, s32_inv s -> nondecr_from (s32_sec s) clk ->
  Forall (fun x => x <= 86399) clk ->
  StronglySorted Z.lt (run_clk s32_next n s clk)
  /\ Forall (fun v => s32_pack (s32_sec s) (s32_dc s) (s32_worker s) (s32_seq s) < v
      /\ exists t q, s32_sec s <= t < 86400 /\ 0 <= q < 512 /\ v = s32_pack t (s32_dc s) (s32_worker s) q)
      (run_clk s32_next n s clk).
Proof.
  induction n; intros s clk Hi Hn Hm; cbn [run_clk]; [split; constructor|].
  destruct (s32_next s clk) as [[[s' v] rest]|] eqn:E; [|split; constructor].
  pose proof (s32_next_mono _ _ _ _ _ Hi Hn Hm E) as (I' & Ed & Ew & N' & M' & Hv & Hlt).
  destruct (IHn s' rest I' N' M') as [IS IF].
  pose proof I' as (Id' & Iw' & Iq' & It'). destruct Hi as (Id & Iw & Iq & It).
  split.
  - constructor; auto. eapply Forall_impl; [|apply IF]. cbn beta. intros a [Ha _].
    rewrite Ed, Ew in Ha. rewrite Hv. exact Ha.
  - assert (PV : v = s32_sec s' * 16384 + s32_dc s * 4096 + s32_worker s * 512 + s32_seq s').
    { rewrite Hv. apply s32_pack_val; lia. }
    assert (PS : s32_pack (s32_sec s) (s32_dc s) (s32_worker s) (s32_seq s) < v).
    { rewrite s32_pack_val by lia. rewrite PV. lia. }
    constructor.
    + split; auto. exists (s32_sec s'), (s32_seq s'). repeat split; auto; lia.
    + eapply Forall_impl; [|apply IF]. cbn beta. intros a [Ha (t & q & Ht & Hq & Ea)]. split.
      * rewrite Ed, Ew, <- Hv in Ha. lia.
      * exists t, q. rewrite Ed, Ew in Ea. repeat split; auto; lia.
Qed.

Lemma spin_none b : forall clk, Forall (fun x => x <= b) clk -> spin b clk = None.
Proof.
  induction clk as [|x clk IH]; intros H; auto. inversion H; subst. cbn.
  replace (x <=? b) with true by lia. auto.
Qed.

Lemma s32_stuck s clk : s32_sec s = 86399 -> s32_seq s = 511 ->
  Forall (fun x => 0 <= x <= 86399) clk -> s32_next s (86399 :: clk) = None.
Proof.
  intros H1 H2 Hc. unfold s32_next. rewrite H1, H2.
  change (86399 =? 86399) with true. change (Z.land (511 + 1) 511 =? 0) with true. cbv iota.
  rewrite spin_none; auto. eapply Forall_impl; [|apply Hc]. cbn; intros; lia.
Qed.

(** The call can always complete, except in that one state. *)
Lemma s32_returns_iff s now : 0 <= s32_seq s < 512 -> 0 <= s32_sec s < 86400 -> 0 <= now <= 86399 ->
  ((exists clk r, Forall (fun x => 0 <= x <= 86399) clk /\ s32_next s (now :: clk) = Some r)
   <-> ~ (s32_sec s = 86399 /\ now = 86399 /\ s32_seq s = 511)).
Proof.
  intros Hq Ht Hn. split.
  - intros (clk & r & Hc & E) (A & B & C). subst now.
    rewrite s32_stuck in E by auto. discriminate.
  - intros N. unfold s32_next. destruct (s32_sec s =? now) eqn:E0; [|exists [], (Sf32 now (s32_dc s) (s32_worker s) 0, s32_pack now (s32_dc s) (s32_worker s) 0, []); split; [constructor|reflexivity]].
    destruct (Z.land (s32_seq s + 1) 511 =? 0) eqn:E1.
    + rewrite land_511 in E1.
      exists [now + 1]. cbn [spin]. replace (now + 1 <=? s32_sec s) with false by lia.
      eexists. split; [|reflexivity]. constructor; [lia|constructor].
    + exists []. eexists. split; [constructor|reflexivity].
Qed.

(** ** BcdSequence *)

Lemma minute_str_spec m : 0 <= m < 10 ^ 8 ->
  length (minute_str m) = 8%nat /\ Forall is_digit (minute_str m) /\ dec_value (minute_str m) = m.
Proof.
  intros H. destruct (IntToFixStr_spec m 8 ltac:(lia) ltac:(lia) ltac:(lia)) as (s & E & L & D & V).
  unfold minute_str. rewrite E. unfold zlen in L. repeat split; auto; lia.
Qed.

Lemma bytes_eqb_eq a b : bytes_eqb a b = true <-> a = b.
Proof. unfold bytes_eqb. destruct (list_eq_dec _ a b); split; intros; auto; discriminate. Qed.

Lemma bcd_next_ok s mi : length (bcd_worker s) = 3%nat -> length mi = 8%nat -> Forall is_digit mi ->
  0 <= bcd_seq s < 1000000 ->
  let q := if bytes_eqb (bcd_ts s) mi then (bcd_seq s + 1) mod 1000000 else 0 in
  exists pm sq pq, packed_bcd mi pm /\ length pm = 4%nat
    /\ length sq = 6%nat /\ Forall is_digit sq /\ dec_value sq = q
    /\ packed_bcd sq pq /\ length pq = 3%nat
    /\ bcd_next s mi = Ok (Bcd (bcd_worker s) mi q, bcd_worker s ++ pm ++ pq).
Proof.
  intros Lw Lm Dm Hs q.
  assert (Hq : 0 <= q < 10 ^ 6).
  { unfold q. destruct (bytes_eqb _ _); [|cbn; lia]. change (10 ^ 6) with 1000000. lia. }
  destruct (IntToFixStr_spec q 6 ltac:(lia) ltac:(lia) ltac:(lia)) as (sq & Eq & Lq & Dq & Vq).
  assert (Lq' : length sq = 6%nat) by (unfold zlen in Lq; lia).
  destruct (packed_exists 4 mi Lm Dm) as (pm & Pm & Lpm).
  destruct (packed_exists 3 sq Lq' Dq) as (pq & Pq & Lpq).
  exists pm, sq, pq. repeat (split; [assumption|]).
  unfold bcd_next. fold q. rewrite Eq. cbn [bind].
  rewrite (StoBcd_packed _ _ Pm), (StoBcd_packed _ _ Pq).
  change (zeros 10) with ([] ++ repeat 0 10).
  rewrite copy_at_end by (cbn; lia). cbn [bind].
  change (Z.to_nat (3 - 0)) with 3%nat. rewrite fit_exact by auto.
  rewrite copy_at_end; [|rewrite zlen_app; unfold zlen; rewrite Lw; reflexivity|lia|cbn; lia].
  cbn [bind]. change (Z.to_nat (7 - 3)) with 4%nat. rewrite fit_exact by auto.
  rewrite copy_at_end; [|rewrite !zlen_app; unfold zlen; rewrite Lw, Lpm; reflexivity|lia|cbn; lia].
  cbn [bind]. change (Z.to_nat (10 - 7)) with 3%nat. rewrite fit_exact by auto.
  cbn [Nat.sub repeat app]. rewrite app_nil_r, <- app_assoc. reflexivity.
Qed.

Lemma packed_inj s s' b : packed_bcd s b -> packed_bcd s' b -> s = s'.
Proof. intros H H'. rewrite <- (BcdToString_packed _ _ H), <- (BcdToString_packed _ _ H'). reflexivity. Qed.

(** Id [v] carries worker [w], minute [m] and counter [q], each as packed decimal. *)
Definition bcd_id (w : bytes) (m q : Z) (v : bytes) : Prop :=
  exists ms qs pm pq, length ms = 8%nat /\ Forall is_digit ms /\ dec_value ms = m
   /\ length qs = 6%nat /\ Forall is_digit qs /\ dec_value qs = q
   /\ packed_bcd ms pm /\ packed_bcd qs pq /\ v = w ++ pm ++ pq.

Lemma bcd_id_inj w m q m' q' v : bcd_id w m q v -> bcd_id w m' q' v -> m = m' /\ q = q'.
Proof.
  intros (ms & qs & pm & pq & L1 & D1 & V1 & L2 & D2 & V2 & P1 & P2 & E)
         (ms' & qs' & pm' & pq' & L1' & D1' & V1' & L2' & D2' & V2' & P1' & P2' & E').
  rewrite E in E'. apply app_inv_head in E'.
  pose proof (packed_length _ _ P1). pose proof (packed_length _ _ P1').
  assert (EE : pm = pm' /\ pq = pq').
  { assert (length pm = length pm') as Hl by lia. clear - E' Hl. revert pm' E' Hl.
    induction pm; intros [|x pm'] E Hl; cbn in *; try lia; auto.
    injection E as -> E. destruct (IHpm pm' E ltac:(lia)) as [-> ->]. auto. }
  destruct EE as [-> ->].
  pose proof (packed_inj _ _ _ P1 P1'). pose proof (packed_inj _ _ _ P2 P2'). subst. auto.
Qed.

(** Counter value of the [i]-th call, by replaying the minutes. *)
Fixpoint bcd_counters (prev : option Z) (q0 : Z) (clk : list Z) : list Z :=
  match clk with
  | [] => []
  | m :: rest =>
    let q := match prev with
             | Some p => if p =? m then (q0 + 1) mod 1000000 else 0
             | None => 0 end in
    q :: bcd_counters (Some m) q rest
  end.

Lemma bcd_run_ok : forall clk s prev, length (bcd_worker s) = 3%nat -> 0 <= bcd_seq s < 1000000 ->
  Forall (fun m => 0 <= m < 10 ^ 8) clk ->
  match prev with Some p => 0 <= p < 10 ^ 8 /\ bcd_ts s = minute_str p | None => bcd_ts s = [] end ->
  exists vs, bcd_run s clk = Ok vs /\
    Forall2 (fun mq v => bcd_id (bcd_worker s) (fst mq) (snd mq) v)
      (combine clk (bcd_counters prev (bcd_seq s) clk)) vs.
Proof.
  induction clk as [|m clk IH]; intros s prev Lw Hs Hm Hp; [exists []; split; [reflexivity|constructor]|].
  inversion Hm as [|? ? Hm0 Hm']; subst. cbn [bcd_run bcd_counters].
  destruct (minute_str_spec m Hm0) as (Lm & Dm & Vm).
  destruct (bcd_next_ok s (minute_str m) Lw Lm Dm Hs) as (pm & sq & pq & P1 & L1 & L2 & D2 & V2 & P2 & L3 & E).
  rewrite E. cbn [bind].
  set (q := if bytes_eqb (bcd_ts s) (minute_str m) then (bcd_seq s + 1) mod 1000000 else 0) in *.
  assert (Eq : q = match prev with Some p => if p =? m then (bcd_seq s + 1) mod 1000000 else 0 | None => 0 end).
  { unfold q. destruct prev as [p|].
    - destruct Hp as [Hp1 Hp2]. rewrite Hp2. destruct (minute_str_spec p Hp1) as (_ & _ & Vp).
      destruct (p =? m) eqn:Epm.
      + replace p with m by lia. replace (bytes_eqb _ _) with true; [reflexivity|].
        symmetry. apply bytes_eqb_eq. reflexivity.
      + destruct (bytes_eqb (minute_str p) (minute_str m)) eqn:F; auto.
        apply bytes_eqb_eq in F. rewrite F in Vp. lia.
    - rewrite Hp. destruct (bytes_eqb [] (minute_str m)) eqn:F; auto.
      apply bytes_eqb_eq in F. rewrite <- F in Lm. discriminate. }
  rewrite <- Eq.
  destruct (IH (Bcd (bcd_worker s) (minute_str m) q) (Some m)) as (vs & Er & Fr); auto.
  { cbn. unfold q. destruct (bytes_eqb _ _); lia. }
  cbn [bcd_worker bcd_seq] in Fr. rewrite Er. cbn [bind].
  eexists; split; [reflexivity|]. cbn [combine]. constructor; auto.
  cbn [fst snd]. exists (minute_str m), sq, pm, pq. auto 12.
Qed.

(** In a non-decreasing trace the counters of two calls in the same minute differ by their
    distance, modulo one million. *)
Lemma counters_same_minute : forall clk prev q0 lo, nondecr_from lo clk ->
  (match prev with Some p => lo = p | None => True end) ->
  forall j, nth_error clk j = prev -> prev <> None ->
  nth_error (bcd_counters prev q0 clk) j = Some ((q0 + 1 + Z.of_nat j) mod 1000000).
Proof.
  induction clk as [|m clk IH]; intros prev q0 lo Hn Hp j Hj Hne.
  - destruct j; cbn in Hj; congruence.
  - destruct prev as [p|]; [|congruence]. subst lo. destruct Hn as [Hlo Hn].
    assert (m = p).
    { destruct j; cbn in Hj; [congruence|]. assert (p >= m); [|lia].
      clear - Hn Hj. revert m j Hn Hj. induction clk as [|y clk IH]; intros m j Hn Hj; [destruct j; discriminate|].
      destruct Hn as [H1 H2]. destruct j; cbn in Hj; [injection Hj as ->; lia|].
      specialize (IH y j H2 Hj). lia. }
    subst m. cbn [bcd_counters]. rewrite Z.eqb_refl. destruct j; cbn [nth_error].
    + rewrite Z.add_0_r. reflexivity.
    + cbn in Hj. rewrite (IH (Some p) _ p Hn eq_refl j Hj ltac:(discriminate)).
      f_equal. rewrite <- Z.add_assoc, Zplus_mod_idemp_l. f_equal. lia.
Qed.

Lemma counters_dist : forall clk prev q0 lo, nondecr_from lo clk ->
  forall i j m qi qj, (i < j)%nat -> nth_error clk i = Some m -> nth_error clk j = Some m ->
  nth_error (bcd_counters prev q0 clk) i = Some qi ->
  nth_error (bcd_counters prev q0 clk) j = Some qj ->
  qj = (qi + Z.of_nat (j - i)) mod 1000000.
Proof.
  induction clk as [|x clk IH]; intros prev q0 lo Hn i j m qi qj Hij Hi Hj Hqi Hqj; [destruct i; discriminate|].
  destruct Hn as [Hlo Hn]. cbn [bcd_counters] in *.
  destruct j; [lia|]. cbn [nth_error] in Hj, Hqj.
  destruct i; cbn [nth_error] in Hi, Hqi.
  - injection Hi as ->. injection Hqi as Hqi. rewrite Hqi in Hqj.
    rewrite (counters_same_minute clk (Some m) qi m Hn eq_refl j Hj ltac:(discriminate)) in Hqj.
    injection Hqj as <-. f_equal. lia.
  - replace (S j - S i)%nat with (j - i)%nat by lia. eapply IH; eauto. lia.
Qed.

Lemma bcd_unique w clk s vs i j vi vj : NewBcdSequence w = Ok s ->
  nondecr_from 0 clk -> Forall (fun m => 0 <= m < 10 ^ 8) clk ->
  bcd_run s clk = Ok vs ->
  nth_error vs i = Some vi -> nth_error vs j = Some vj -> (i < j)%nat -> vi = vj ->
  nth_error clk i = nth_error clk j /\ 1000000 <= Z.of_nat (j - i).
Proof.
  intros Hw Hn Hm Hr Hi Hj Hij E.
  assert (Ws : length (bcd_worker s) = 3%nat /\ bcd_ts s = [] /\ bcd_seq s = 0).
  { unfold NewBcdSequence in Hw. destruct (slice _ _ _) as [w3| |] eqn:Es; try discriminate.
    cbn [bind] in Hw. injection Hw as <-. cbn. split; auto.
    apply StoBcd_length. apply slice_len in Es. unfold zlen in Es. lia. }
  destruct Ws as (Lw & Ts & Qs).
  destruct (bcd_run_ok clk s None Lw ltac:(lia) Hm Ts) as (vs' & E' & F). rewrite Hr in E'. injection E' as <-.
  assert (G : forall k v, nth_error vs k = Some v -> exists m q, nth_error clk k = Some m
       /\ nth_error (bcd_counters None (bcd_seq s) clk) k = Some q /\ bcd_id (bcd_worker s) m q v /\ 0 <= q < 1000000).
  { assert (LC : forall clk p q, length (bcd_counters p q clk) = length clk)
      by (induction clk0; intros; cbn; auto).
    assert (RC : forall clk p q, Forall (fun q => 0 <= q < 1000000) (bcd_counters p q clk)).
    { induction clk0; intros; cbn; constructor; auto. destruct p; [destruct (_ =? _)|]; lia. }
    intros k v Hk.
    assert (exists mq, nth_error (combine clk (bcd_counters None (bcd_seq s) clk)) k = Some mq
            /\ bcd_id (bcd_worker s) (fst mq) (snd mq) v) as ([m q] & Hmq & Hid).
    { clear - F Hk. revert k Hk. induction F; intros k Hk; [destruct k; discriminate|].
      destruct k; cbn in *; [injection Hk as <-; eauto|]. apply IHF; auto. }
    exists m, q. cbn [fst snd] in Hid.
    assert (HH : forall (a b : list Z) k m q, nth_error (combine a b) k = Some (m, q) -> nth_error a k = Some m /\ nth_error b k = Some q).
    { clear. induction a; intros b k m q H; destruct b; destruct k; cbn in *; try discriminate; auto.
      injection H as <- <-; auto. }
    apply HH in Hmq as [H1 H2]. repeat split; auto.
    - apply nth_error_In in H2. specialize (RC clk None (bcd_seq s)). rewrite Forall_forall in RC. apply RC; auto.
    - apply nth_error_In in H2. specialize (RC clk None (bcd_seq s)). rewrite Forall_forall in RC. apply RC; auto. }
  destruct (G i vi Hi) as (mi & qi & Gi1 & Gi2 & Gi3 & Gi4).
  destruct (G j vj Hj) as (mj & qj & Gj1 & Gj2 & Gj3 & Gj4).
  subst vj. destruct (bcd_id_inj _ _ _ _ _ _ Gi3 Gj3) as [-> ->].
  split; [congruence|].
  pose proof (counters_dist clk None (bcd_seq s) 0 Hn i j mj qj qj Hij Gi1 Gj1 Gi2 Gj2) as D. lia.
Qed.

(** ** SGIP sequence *)

Lemma land_ffffffff x : Z.land (u32 x) 4294967295 = x mod 2 ^ 32.
Proof.
  change 4294967295 with (Z.ones 32). rewrite Z.land_ones by lia. unfold u32.
  change (2 ^ 32) with 4294967296. apply Z.mod_mod. lia.
Qed.

Lemma sg_run_nth : forall clk s i v, nth_error (sg_run s clk) i = Some v ->
  exists t, nth_error clk i = Some t /\
  v = (sg_node s, snd (fst (snd (sg_next s t))), (sg_seq s + 31 * (Z.of_nat i + 1)) mod 2 ^ 32).
Proof.
  induction clk as [|t clk IH]; intros s i v H; [destruct i; discriminate|].
  cbn [sg_run] in H. unfold sg_next in H at 1. rewrite land_ffffffff in H.
  destruct i; cbn [nth_error] in *.
  - exists t. split; auto. injection H as <-. unfold sg_next. cbn [fst snd].
    f_equal.
  - apply IH in H as (t' & H1 & H2). exists t'. split; auto. rewrite H2. cbn [sg_node sg_seq].
    unfold sg_next. cbn [fst snd]. f_equal.
    rewrite Zplus_mod_idemp_l. f_equal. lia.
Qed.

Lemma sg_unique s clk i j vi vj : nth_error (sg_run s clk) i = Some vi ->
  nth_error (sg_run s clk) j = Some vj -> i <> j ->
  Z.abs (Z.of_nat i - Z.of_nat j) < 2 ^ 32 -> snd vi <> snd vj.
Proof.
  intros Hi Hj Hne Hlt E. apply sg_run_nth in Hi as (ti & _ & ->). apply sg_run_nth in Hj as (tj & _ & ->).
  cbn [snd] in E.
  assert (P : 2 ^ 32 = 4294967296) by reflexivity. rewrite P in *.
  assert (D : (31 * (Z.of_nat i - Z.of_nat j)) mod 4294967296 = 0).
  { replace (31 * (Z.of_nat i - Z.of_nat j))
      with ((sg_seq s + 31 * (Z.of_nat i + 1)) - (sg_seq s + 31 * (Z.of_nat j + 1))) by lia.
    rewrite Zminus_mod, E, Z.sub_diag. reflexivity. }
  apply Z.mod_divide in D; [|lia].
  assert (G : (4294967296 | Z.of_nat i - Z.of_nat j)).
  { apply Gauss with 31; auto. apply Zgcd_1_rel_prime. reflexivity. }
  destruct G as [k G]. nia.
Qed.

Lemma sg_ts_value t : 1 <= t_mon t <= 12 -> 1 <= t_day t <= 31 -> 0 <= t_hour t <= 23 ->
  0 <= t_min t <= 59 -> 0 <= t_sec t <= 59 -> forall s,
  snd (fst (snd (sg_next s t)))
  = t_mon t * 100000000 + t_day t * 1000000 + t_hour t * 10000 + t_min t * 100 + t_sec t.
Proof.
  intros. unfold sg_next. cbn [fst snd]. unfold u32.
  rewrite !(Z.mod_small _ 4294967296); lia.
Qed.
