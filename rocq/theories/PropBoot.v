(** * PropBoot: property C74 (processes configured apart never produce the same id).
    Model: BootModel.v (SeqInit) over SeqModel.v. *)
From Verif Require Import Base UtilsModel SpecText UtilsProofs UtfProofs SeqModel SeqProofs PropSeq BootModel.

(** ** Specification *)

(** Node numbers within the documented widths of the 64-bit id. *)
Definition node_ok (c : settings) : Prop :=
  0 <= cf_b64_dc c < 8 /\ 0 <= cf_b64_worker c < 128.
(** The documented widths of the 32-bit id: two bits of data centre, three of worker. *)
Definition node32_ok (c : settings) : Prop :=
  0 <= cf_b32_dc c < 4 /\ 0 <= cf_b32_worker c < 8.
(** A BCD worker: at most six decimal digits. *)
Definition bcd_ok (c : settings) : Prop :=
  Forall is_digit (cf_bcd c) /\ (length (cf_bcd c) <= 6)%nat.
(** An SGIP node number is an unsigned 32-bit number. *)
Definition sgip_ok (c : settings) : Prop := 0 <= cf_sgip c < 2 ^ 32.
(** The four bits of the configured node that reach the top of a 32-bit id. *)
Definition top4 (dc w : Z) : Z := Z.lor (8 * (dc mod 2)) (w mod 16).

(** ** Lemmas *)

Lemma digits_text s : Forall is_digit s -> utf8_text s s.
Proof.
  induction 1 as [|c s H F IH]; [constructor|].
  change (c :: s) with ([c] ++ s) at 2. constructor; auto.
  constructor. unfold is_digit in H. lia.
Qed.

Lemma bcd_start w : Forall is_digit w -> (length w <= 6)%nat ->
  exists p, length p = 6%nat /\ Forall is_digit p /\ dec_value p = dec_value w
    /\ NewBcdSequence w = Ok (Bcd (StoBcd p) [] 0).
Proof.
  intros D L. exists (repeat 48 (6 - length w) ++ w).
  split; [rewrite app_length, repeat_length; lia|].
  split; [apply Forall_app; split; auto; apply Forall_forall; intros x Hx; apply repeat_spec in Hx; subst; unfold is_digit; lia|].
  split; [apply dec_value_zeros|].
  unfold NewBcdSequence. rewrite (runes_text w w (digits_text w D)).
  assert (B : existsb (fun r => (57 <? u8 r) || (u8 r <? 48)) w = false).
  { clear L. induction D as [|c w H F IH]; auto. cbn [existsb]. rewrite IH.
    unfold is_digit in H. unfold u8. rewrite Z.mod_small by lia.
    replace (57 <? c) with false by lia. replace (c <? 48) with false by lia. reflexivity. }
  rewrite B.
  assert (S3 : slice (repeat 48 6 ++ w) (zlen (repeat 48 6 ++ w) - 6) (zlen (repeat 48 6 ++ w))
      = Ok (repeat 48 (6 - length w) ++ w)).
  { assert (R : repeat 48 6 = repeat 48 (length w) ++ repeat 48 (6 - length w)).
    { rewrite <- repeat_app. f_equal. lia. }
    unfold slice.
    assert (Z6 : zlen (repeat 48 6 ++ w) = 6 + zlen w) by (rewrite zlen_app; reflexivity).
    rewrite Z6. assert (0 <= zlen w) by (unfold zlen; lia).
    replace ((0 <=? 6 + zlen w - 6) && (6 + zlen w - 6 <=? 6 + zlen w) && (6 + zlen w <=? 6 + zlen w)) with true by lia.
    f_equal. replace (Z.to_nat (6 + zlen w - 6)) with (length w) by (unfold zlen; lia).
    rewrite R. rewrite <- app_assoc.
    rewrite skipn_app, skipn_all2 by (rewrite repeat_length; lia). rewrite repeat_length.
    replace (length w - length w)%nat with 0%nat by lia. cbn [skipn app].
    apply firstn_all2. rewrite app_length, repeat_length. unfold zlen. lia. }
  rewrite S3. reflexivity.
Qed.

Lemma bcd_run_worker s clk vs v : length (bcd_worker s) = 3%nat -> bcd_seq s = 0 -> bcd_ts s = [] ->
  Forall (fun m => 0 <= m < 10 ^ 8) clk -> bcd_run s clk = Ok vs -> In v vs ->
  firstn 3 v = bcd_worker s.
Proof.
  intros Lw Q T F R H.
  destruct (bcd_run_ok clk s None Lw ltac:(lia) F T) as (vs' & E & F2). rewrite R in E. injection E as <-.
  clear R. revert H. induction F2 as [|mq x l l' Hx F2 IH]; [intros []|]. intros [->|H]; auto.
  destruct Hx as (ms & qs & pm & pq & _ & _ & _ & _ & _ & _ & _ & _ & ->).
  rewrite firstn_app, Lw. cbn [Nat.sub]. rewrite firstn_O, app_nil_r.
  pose proof (firstn_all (bcd_worker s)) as X. rewrite Lw in X. exact X.
Qed.

Lemma u32_i32 x : u32 (i32 x) = u32 x.
Proof. unfold i32, u32. destruct (_ <? _); [apply Z.mod_mod; lia|].
  replace (x mod 4294967296 - 4294967296) with (x mod 4294967296 + (-1) * 4294967296) by ring.
  rewrite Z.mod_add by lia. apply Z.mod_mod. lia. Qed.

Lemma in_iff {A} (l : list A) v : In v l <-> exists i, nth_error l i = Some v.
Proof. split; [apply In_nth_error|intros [i H]; eapply nth_error_In; eauto]. Qed.

Lemma sg_run_at : forall clk s i t, nth_error clk i = Some t ->
  nth_error (sg_run s clk) i
  = Some (sg_node s, snd (fst (snd (sg_next s t))), (sg_seq s + 31 * (Z.of_nat i + 1)) mod 2 ^ 32).
Proof.
  intros clk s i t H. destruct (nth_error (sg_run s clk) i) as [v|] eqn:E.
  - apply sg_run_nth in E as (t' & H1 & ->). rewrite H in H1. injection H1 as <-. reflexivity.
  - exfalso. apply nth_error_None in E.
    assert (L : forall clk s, length (sg_run s clk) = length clk).
    { induction clk0; intros; cbn [sg_run]; auto. destruct (sg_next s0 a). cbn. auto. }
    rewrite L in E. apply nth_error_None in E. congruence.
Qed.

Lemma init_sgip c g : SeqInit None c = Ok g ->
  g_sgip g = SgSeq (u32 (i32 (cf_sgip c))) 0 (u32 (i64 (8 * i64 (cf_b64_dc c) + i64 (cf_b64_worker c)))).
Proof.
  intros E. assert (J : forall x y : gens, Ok x = Ok y -> y = x) by congruence.
  unfold SeqInit in E. destruct (NewBcdSequence (cf_bcd c)) as [b| |]; try discriminate.
  apply J in E. rewrite E. reflexivity.
Qed.

(** ** Theorems *)

(** Settings in range always start. *)
Theorem C74_starts : forall c, bcd_ok c -> exists g, SeqInit None c = Ok g.
Proof.
  intros c [D L]. destruct (bcd_start _ D L) as (p & _ & _ & _ & E).
  unfold SeqInit. rewrite E. cbn [bind]. eauto.
Qed.

(** 64-bit ids: nodes configured apart never meet. *)
Theorem C74_b64 : forall c c' g g' n m clk clk' v,
  SeqInit None c = Ok g -> SeqInit None c' = Ok g' -> node_ok c -> node_ok c' ->
  (cf_b64_dc c, cf_b64_worker c) <> (cf_b64_dc c', cf_b64_worker c') ->
  nondecr_from 0 clk -> nondecr_from 0 clk' ->
  (forall x, In x clk \/ In x clk' -> epoch2020 <= x <= epoch2020 + max41) ->
  In v (run_clk sf_next n (g_b64 g) clk) -> ~ In v (run_clk sf_next m (g_b64 g') clk').
Proof. change max41 with sf_timestampMax; change epoch2020 with sf_epoch.
  intros c c' g g' n m clk clk' v E E' [N1 N2] [N1' N2'] Hne Hc Hc' Hr.
  unfold SeqInit in E, E'.
  destruct (NewBcdSequence (cf_bcd c)) as [b| |]; try discriminate.
  destruct (NewBcdSequence (cf_bcd c')) as [b'| |]; try discriminate.
  cbn [bind] in E, E'. injection E as <-. injection E' as <-. cbn [g_b64].
  rewrite !i64_small by (change (2 ^ 63) with 9223372036854775808; lia).
  exact (C12_nodes_distinct _ _ _ _ n m clk clk' v N1 N2 N1' N2' Hne Hc Hc' Hr).
Qed.

(** BCD ids: worker texts of different value never meet. *)
Theorem C74_bcd : forall c c' g g' clk clk' vs vs' v,
  SeqInit None c = Ok g -> SeqInit None c' = Ok g' -> bcd_ok c -> bcd_ok c' ->
  dec_value (cf_bcd c) <> dec_value (cf_bcd c') ->
  Forall (fun m => 0 <= m < 10 ^ 8) clk -> Forall (fun m => 0 <= m < 10 ^ 8) clk' ->
  bcd_run (g_bcd g) clk = Ok vs -> bcd_run (g_bcd g') clk' = Ok vs' ->
  In v vs -> ~ In v vs'.
Proof.
  intros c c' g g' clk clk' vs vs' v E E' [D L] [D' L'] Hne F F' R R' H H'.
  destruct (bcd_start _ D L) as (p & Lp & Dp & Vp & B).
  destruct (bcd_start _ D' L') as (p' & Lp' & Dp' & Vp' & B').
  unfold SeqInit in E, E'. rewrite B in E. rewrite B' in E'. cbn [bind] in E, E'.
  injection E as <-. injection E' as <-. cbn [g_bcd] in *.
  destruct (packed_exists 3 p Lp Dp) as (b & P & Lb). destruct (packed_exists 3 p' Lp' Dp') as (b' & P' & Lb').
  pose proof (StoBcd_packed _ _ P) as S1. pose proof (StoBcd_packed _ _ P') as S2. rewrite S1 in R. rewrite S2 in R'.
  apply (bcd_run_worker (Bcd b [] 0) clk vs v) in H; auto. apply (bcd_run_worker (Bcd b' [] 0) clk' vs' v) in H'; auto.
  cbn [bcd_worker] in H, H'. rewrite H in H'. subst b'.
  pose proof (packed_inj _ _ _ P P'). congruence.
Qed.

(** SGIP numbers carry exactly the configured node (although it is read as a signed
    number), so different nodes never meet. *)
Theorem C74_sgip_node : forall c g clk v,
  SeqInit None c = Ok g -> sgip_ok c -> In v (sg_run (g_sgip g) clk) -> fst (fst v) = cf_sgip c.
Proof.
  intros c g clk v E N H. unfold SeqInit in E.
  destruct (NewBcdSequence (cf_bcd c)) as [b| |]; try discriminate.
  cbn [bind] in E. injection E as <-. cbn [g_sgip] in H.
  apply In_nth_error in H as [i H]. apply sg_run_nth in H as (t & _ & ->). cbn [fst].
  unfold NewSequencer. cbn [sg_node]. rewrite u32_i32. unfold sgip_ok in N. unfold u32.
  apply Z.mod_small. change (2 ^ 32) with 4294967296 in N. lia.
Qed.

(** 32-bit ids: of the ten configured bits four reach the id, with bit 3 of the worker and
    the parity of the data centre merged into one; two processes meet exactly when those
    agree.  (The node numbers of the 64-bit block are used.) *)
Lemma top4_eq d w q : 0 <= q < 2 ^ 26 -> 0 <= d < 8 -> 0 <= w < 128 ->
  u32 (Z.lor (Z.lor (shl32 d 31) (shl32 w 28)) q) = top4 d w * 2 ^ 28 + q /\
  -8 <= Z.lor (shl32 d 31) (shl32 w 28) / 2 ^ 28 < 8 /\ Z.lor (shl32 d 31) (shl32 w 28) mod 2 ^ 28 = 0.
Proof.
  intros Hq Hd Hw.
  assert (F : forallb (fun d => forallb (fun w =>
      let h := Z.lor (shl32 d 31) (shl32 w 28) in
      (h mod 2 ^ 28 =? 0) && (-8 <=? h / 2 ^ 28) && (h / 2 ^ 28 <? 8) && ((h / 2 ^ 28) mod 16 =? top4 d w))
      (map Z.of_nat (seq 0 128))) (map Z.of_nat (seq 0 8)) = true) by (vm_compute; reflexivity).
  rewrite forallb_forall in F.
  assert (Hi : forall x k, 0 <= x < Z.of_nat k -> In x (map Z.of_nat (seq 0 k))).
  { intros x k Hx. replace x with (Z.of_nat (Z.to_nat x)) by lia. apply in_map. apply in_seq. lia. }
  specialize (F d (Hi d 8%nat ltac:(lia))). rewrite forallb_forall in F.
  specialize (F w (Hi w 128%nat ltac:(lia))). cbv zeta in F.
  set (h := Z.lor (shl32 d 31) (shl32 w 28)) in *.
  apply andb_true_iff in F as [F F4]. apply andb_true_iff in F as [F F3]. apply andb_true_iff in F as [F1 F2].
  change (2 ^ 28) with 268435456 in *. change (2 ^ 26) with 67108864 in *.
  assert (Eh : h = (h / 268435456) * 268435456) by (pose proof (Z.div_mod h 268435456); lia).
  repeat split; try lia.
  rewrite Eh. change 268435456 with (2 ^ 28) at 2. rewrite lor_disjoint by (change (2 ^ 28) with 268435456; lia).
  change (2 ^ 28) with 268435456. unfold u32. set (k := h / 268435456) in *.
  symmetry. apply Z.mod_unique with (k / 16); [|pose proof (Z.div_mod k 16); lia].
  pose proof (Z.mod_pos_bound k 16). lia.
Qed.

Theorem C74_b32_partial : forall c c' g g', SeqInit None c = Ok g -> SeqInit None c' = Ok g' ->
  node_ok c -> node_ok c' ->
  ((exists v n m, In v (run_gen cyc_next n (g_b32 g)) /\ In v (run_gen cyc_next m (g_b32 g')))
   <-> top4 (cf_b64_dc c) (cf_b64_worker c) = top4 (cf_b64_dc c') (cf_b64_worker c')).
Proof.
  intros c c' g g' E E' [N1 N2] [N1' N2'].
  unfold SeqInit in E, E'.
  destruct (NewBcdSequence (cf_bcd c)) as [b| |]; try discriminate.
  destruct (NewBcdSequence (cf_bcd c')) as [b'| |]; try discriminate.
  cbn [bind] in E, E'. injection E as <-. injection E' as <-. cbn [g_b32].
  rewrite !i64_small by (change (2 ^ 63) with 9223372036854775808; lia).
  rewrite !i32_small by (change (2 ^ 31) with 2147483648; lia).
  set (d := cf_b64_dc c) in *. set (w := cf_b64_worker c) in *.
  set (d' := cf_b64_dc c') in *. set (w' := cf_b64_worker c') in *.
  assert (P : 0 < 2 ^ 26) by (cbn; lia).
  split.
  - intros (v & n & m & H1 & H2). apply In_nth_error in H1 as [i H1], H2 as [j H2].
    apply cyc_run_nth in H1, H2. cbn [NewCycle cy_dc cy_worker cy_seq] in H1, H2.
    pose proof (Z.mod_pos_bound (0 + 1 + Z.of_nat i) (2^26) P) as B1.
    pose proof (Z.mod_pos_bound (0 + 1 + Z.of_nat j) (2^26) P) as B2.
    destruct (top4_eq d w _ B1 N1 N2) as [E1 _]. destruct (top4_eq d' w' _ B2 N1' N2') as [E2 _].
    rewrite <- H1 in E1. rewrite <- H2 in E2. rewrite E1 in E2.
    change (2 ^ 28) with 268435456 in E2. change (2 ^ 26) with 67108864 in *. lia.
  - intros Et.
    assert (R : forall s, run_gen cyc_next 1 s = [snd (cyc_next s)]) by reflexivity.
    exists (snd (cyc_next (NewCycle d w))), 1%nat, 1%nat. rewrite !R.
    split; [left; reflexivity|]. left.
    unfold cyc_next, NewCycle. cbn [cy_seq cy_dc cy_worker snd].
    change (Z.land (i32 (0 + 1)) 67108863) with 1. f_equal.
    assert (B1 : 0 <= 0 < 2 ^ 26) by (cbn; lia).
    destruct (top4_eq d w 0 B1 N1 N2) as (E1 & L1 & M1). destruct (top4_eq d' w' 0 B1 N1' N2') as (E2 & L2 & M2).
    rewrite <- Et, <- E1 in E2. rewrite !Z.lor_0_r in E2.
    set (h := Z.lor (shl32 d 31) (shl32 w 28)) in *. set (h' := Z.lor (shl32 d' 31) (shl32 w' 28)) in *.
    unfold u32 in E2. change (2 ^ 28) with 268435456 in *.
    pose proof (Z.div_mod h 268435456). pose proof (Z.div_mod h' 268435456).
    pose proof (Z.div_mod h 4294967296). pose proof (Z.div_mod h' 4294967296). lia.
Qed.

(** SGIP numbers of one node: two calls of two processes, made in the same second, give the
    same number exactly when start value plus 31 per call agree modulo 2^32. *)
Theorem C74_sgip_worker_partial : forall c c' g g' clk clk' i j t v v',
  SeqInit None c = Ok g -> SeqInit None c' = Ok g' -> node_ok c -> node_ok c' ->
  u32 (cf_sgip c) = u32 (cf_sgip c') ->
  nth_error clk i = Some t -> nth_error clk' j = Some t ->
  nth_error (sg_run (g_sgip g) clk) i = Some v -> nth_error (sg_run (g_sgip g') clk') j = Some v' ->
  (v = v' <-> (8 * cf_b64_dc c + cf_b64_worker c + 31 * Z.of_nat i
               - (8 * cf_b64_dc c' + cf_b64_worker c' + 31 * Z.of_nat j)) mod 2 ^ 32 = 0).
Proof.
  intros c c' g g' clk clk' i j t v v' E E' [N1 N2] [N1' N2'] En Hi Hj Hv Hv'.
  rewrite (init_sgip _ _ E) in Hv. rewrite (init_sgip _ _ E') in Hv'.
  apply sg_run_nth in Hv as (t1 & T1 & ->). apply sg_run_nth in Hv' as (t2 & T2 & ->).
  rewrite Hi in T1. injection T1 as <-. rewrite Hj in T2. injection T2 as <-.
  cbn [sg_node sg_seq]. unfold sg_next. cbn [fst snd].
  rewrite !u32_i32, En.
  assert (I : forall x, 0 <= x < 10000 -> i64 x = x)
    by (intros; apply i64_small; change (2 ^ 63) with 9223372036854775808; lia).
  rewrite (I (cf_b64_dc c)), (I (cf_b64_worker c)), (I (cf_b64_dc c')), (I (cf_b64_worker c')) by lia.
  rewrite !I by lia.
  set (s := 8 * cf_b64_dc c + cf_b64_worker c). set (s' := 8 * cf_b64_dc c' + cf_b64_worker c').
  assert (S1 : 0 <= s < 1000) by (unfold s; lia). assert (S2 : 0 <= s' < 1000) by (unfold s'; lia).
  clearbody s s'.
  assert (U : forall x, 0 <= x < 1000 -> u32 x = x) by (intros; unfold u32; apply Z.mod_small; lia).
  rewrite (U s S1), (U s' S2). set (ts := u32 (u32 _ + _)).
  split.
  - intros H. assert (H' : (s + 31 * (Z.of_nat i + 1)) mod 2 ^ 32 = (s' + 31 * (Z.of_nat j + 1)) mod 2 ^ 32) by congruence.
    replace (s + 31 * Z.of_nat i - (s' + 31 * Z.of_nat j)) with ((s + 31 * (Z.of_nat i + 1)) - (s' + 31 * (Z.of_nat j + 1))) by lia.
    rewrite Zminus_mod, H', Z.sub_diag. reflexivity.
  - intros H. f_equal. apply Z.mod_divide in H; [|cbn; lia]. destruct H as [k H].
    replace (s + 31 * (Z.of_nat i + 1)) with (s' + 31 * (Z.of_nat j + 1) + k * 2 ^ 32) by lia.
    apply Z.mod_add. cbn. lia.
Qed.

(** REFUTED.  Processes that differ only in the 32-bit node block (and are both in range)
    hand out exactly the same ids of every kind: that block is never read. *)
Theorem C74_refuted_b32 : forall c d w, node32_ok c -> 0 <= d < 4 -> 0 <= w < 8 ->
  let c' := Settings (cf_b64_dc c) (cf_b64_worker c) d w (cf_bcd c) (cf_sgip c) in
  forall g g', SeqInit None c = Ok g -> SeqInit None c' = Ok g' ->
  forall n, run_gen cyc_next n (g_b32 g) = run_gen cyc_next n (g_b32 g')
    /\ (forall clk, sg_run (g_sgip g) clk = sg_run (g_sgip g') clk).
Proof.
  intros c d w _ _ _ c' g g' E E' n. unfold SeqInit in E, E'. cbn in E'.
  destruct (NewBcdSequence (cf_bcd c)) as [b| |]; try discriminate.
  cbn [bind] in E, E'. injection E as <-. injection E' as <-. split; reflexivity.
Qed.

(** REFUTED.  Two nodes eight workers and one data centre apart hand out exactly the same
    SGIP numbers whenever they run on the same clock. *)
Theorem C74_refuted_sgip : forall c c' g g',
  SeqInit None c = Ok g -> SeqInit None c' = Ok g' -> node_ok c -> node_ok c' ->
  cf_b64_dc c' = cf_b64_dc c + 1 -> cf_b64_worker c = cf_b64_worker c' + 8 -> cf_sgip c = cf_sgip c' ->
  forall clk, sg_run (g_sgip g) clk = sg_run (g_sgip g') clk.
Proof.
  intros c c' g g' E E' [N1 N2] [N1' N2'] Hd Hw Hn clk.
  rewrite (init_sgip _ _ E), (init_sgip _ _ E').
  rewrite Hn, Hd, Hw.
  assert (I : forall x, 0 <= x < 10000 -> i64 x = x)
    by (intros; apply i64_small; change (2 ^ 63) with 9223372036854775808; lia).
  rewrite (I (cf_b64_dc c)), (I (cf_b64_dc c + 1)), (I (cf_b64_worker c')), (I (cf_b64_worker c' + 8)) by lia.
  do 4 f_equal. lia.
Qed.

(** REFUTED.  Every process of one node meets every other within 2^32 calls of it, whatever
    their settings: the step 31 is odd. *)
Theorem C74_refuted_sgip_all : forall c c' g g' i,
  SeqInit None c = Ok g -> SeqInit None c' = Ok g' -> node_ok c -> node_ok c' -> cf_sgip c = cf_sgip c' ->
  exists j, Z.of_nat j < 2 ^ 32 /\
  forall clk clk' t, nth_error clk i = Some t -> nth_error clk' j = Some t ->
  exists v, nth_error (sg_run (g_sgip g) clk) i = Some v /\ nth_error (sg_run (g_sgip g') clk') j = Some v.
Proof.
  intros c c' g g' i E E' N N' Hn.
  (* 31 * 3186588639 = 23 * 2^32 + 1 *)
  set (k := ((8 * cf_b64_dc c + cf_b64_worker c + 31 * Z.of_nat i - (8 * cf_b64_dc c' + cf_b64_worker c')) * 3186588639) mod 2 ^ 32).
  assert (K : 0 <= k < 2 ^ 32) by (apply Z.mod_pos_bound; cbn; lia).
  exists (Z.to_nat k). split; [lia|].
  intros clk clk' t Hi Hj.
  pose proof (sg_run_at clk (g_sgip g) i t Hi) as V.
  pose proof (sg_run_at clk' (g_sgip g') (Z.to_nat k) t Hj) as V'.
  eexists. split; [exact V|]. rewrite V'. f_equal. symmetry.
  refine (proj2 (C74_sgip_worker_partial c c' g g' clk clk' i (Z.to_nat k) t _ _ E E' N N' (f_equal u32 Hn) Hi Hj V V') _).
  rewrite Z2Nat.id by lia. unfold k.
  set (a := 8 * cf_b64_dc c + cf_b64_worker c + 31 * Z.of_nat i). set (a' := 8 * cf_b64_dc c' + cf_b64_worker c').
  change (2 ^ 32) with 4294967296. clear.
  pose proof (Z.div_mod ((a - a') * 3186588639) 4294967296 ltac:(lia)) as D.
  set (r := ((a - a') * 3186588639) mod 4294967296) in *. set (q := ((a - a') * 3186588639) / 4294967296) in *.
  replace (a - (a' + 31 * r)) with ((31 * q - 23 * (a - a')) * 4294967296) by lia.
  apply Z.mod_mul. lia.
Qed.

(** Initialising again in the same process goes on with the SGIP numbers instead of repeating them (the other generators
    start anew), whatever the second settings are. *)
Fixpoint sgip_after (s : sgseq) (clk : list tod) : sgseq :=
  match clk with [] => s | t :: r => sgip_after (fst (sg_next s t)) r end.
Theorem C74_again : forall c c' g g' clk clk', SeqInit None c = Ok g ->
  SeqInit (Some (sgip_after (g_sgip g) clk)) c' = Ok g' ->
  sg_run (g_sgip g) (clk ++ clk') = sg_run (g_sgip g) clk ++ sg_run (g_sgip g') clk'.
Proof.
  intros c c' g g' clk clk' _ E'. unfold SeqInit in E'. apply bind_ok in E' as (b & _ & E'). injection E' as <-.
  cbn [g_sgip NewSequencer]. generalize (g_sgip g) as s. induction clk as [|t r IH]; intros s; [reflexivity|].
  cbn [app sg_run sgip_after]. destruct (sg_next s t) as [s' v]. cbn [fst app]. f_equal. apply IH.
Qed.
Example C74_again_case :
  match SeqInit None (Settings 0 8 0 0 [49] 5) with
  | Ok g => match SeqInit (Some (sgip_after (g_sgip g) [Tod 1 2 3 4 5])) (Settings 0 9 0 0 [49] 6) with
            | Ok g' => sg_run (g_sgip g') [Tod 1 2 3 4 6] = [(5, 102030406, 70)]
            | _ => False end
  | _ => False end.
Proof. vm_compute. reflexivity. Qed.
Print Assumptions C74_again.

(** The shipped settings (worker 127 for the 64-bit id, 7 for the 32-bit id, SGIP node
    3037196688) start; a second process at worker 111 meets the first in its 32-bit ids;
    workers 8/centre 0 and worker 0/centre 1 meet in their SGIP numbers. *)
Example C74_case :
  let c0 := Settings 0 127 0 7 [48;49;48;50;48;51] 3037196688 in
  let c1 := Settings 0 111 0 7 [49;48;50;48;51] 3037196688 in
  match SeqInit None c0, SeqInit None c1 with
  | Ok g, Ok g1 =>
    run_gen cyc_next 2 (g_b32 g) = run_gen cyc_next 2 (g_b32 g1)
    /\ sg_run (g_sgip g) [Tod 11 16 7 0 0] = [(3037196688, 1116070000, 158)]
    /\ top4 0 127 = 15 /\ top4 0 111 = 15
    /\ bcd_run (g_bcd g) [11160700] = bcd_run (g_bcd g1) [11160700]
  | _, _ => False
  end
  /\ node_ok c0 /\ node_ok c1 /\ node32_ok c0 /\ bcd_ok c0 /\ bcd_ok c1 /\ sgip_ok c0
  /\ match SeqInit None (Settings 0 8 0 0 [49] 5), SeqInit None (Settings 1 0 0 1 [50] 5) with
     | Ok g, Ok g' => g_b64 g <> g_b64 g' /\ g_bcd g <> g_bcd g'
        /\ sg_run (g_sgip g) [Tod 1 2 3 4 5; Tod 1 2 3 4 6] = [(5, 102030405, 39); (5, 102030406, 70)]
        /\ sg_run (g_sgip g') [Tod 1 2 3 4 5; Tod 1 2 3 4 6] = [(5, 102030405, 39); (5, 102030406, 70)]
     | _, _ => False end.
Proof.
  cbv zeta. split; [vm_compute; repeat split; reflexivity|].
  unfold node_ok, node32_ok, bcd_ok, sgip_ok, is_digit. cbn [cf_b64_dc cf_b64_worker cf_b32_dc cf_b32_worker cf_bcd cf_sgip].
  repeat match goal with |- _ /\ _ => split end; try lia; try (repeat constructor; lia); try (cbn; lia).
  vm_compute. repeat split; try discriminate; reflexivity.
Qed.
Print Assumptions C74_starts.
Print Assumptions C74_b64.
Print Assumptions C74_bcd.
Print Assumptions C74_sgip_node.
Print Assumptions C74_b32_partial.
Print Assumptions C74_sgip_worker_partial.
Print Assumptions C74_refuted_b32.
Print Assumptions C74_refuted_sgip.
Print Assumptions C74_refuted_sgip_all.
