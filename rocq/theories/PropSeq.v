(** * PropSeq: properties C09-C17 (identifier generators).
    Models: SeqModel.v.  Proofs: SeqProofs.v.
    [run_gen next n s] are the outputs of [n] consecutive calls from state [s];
    [run_clk next n s clk] the ids returned by up to [n] calls reading the clock trace [clk]. *)
From Coq Require Import Sorting.Sorted.
From Verif Require Import Base UtilsModel SpecText UtilsProofs UtfProofs SeqModel SeqProofs.

(** ** C09 Packet sequence numbers do not repeat within the period 2^26 *)

Theorem C09_unique_in_period : forall n s i j vi vj,
  nth_error (run_gen cyc_next n s) i = Some vi ->
  nth_error (run_gen cyc_next n s) j = Some vj ->
  i <> j -> Z.abs (Z.of_nat i - Z.of_nat j) < 2 ^ 26 -> vi <> vj.
Proof. exact cyc_unique. Qed.
(** The period is exactly 2^26: two calls agree iff their distance is a multiple of it. *)
Theorem C09_period_exact : forall n s i j vi vj,
  nth_error (run_gen cyc_next n s) i = Some vi ->
  nth_error (run_gen cyc_next n s) j = Some vj ->
  (vi = vj <-> (Z.of_nat i - Z.of_nat j) mod 2 ^ 26 = 0).
Proof. intros n s. exact (cyc_same_iff n n s). Qed.
(** Every one of the [n] calls returns. *)
Theorem C09_total : forall n s, length (run_gen cyc_next n s) = n.
Proof. induction n; intros s; cbn [run_gen]; auto. destruct (cyc_next s). cbn. auto. Qed.
Example C09_case : run_gen cyc_next 3 (Cyc 0 3 67108861)
  = [3 * 268435456 + 67108862; 3 * 268435456 + 67108863; 3 * 268435456].
Proof. vm_compute. reflexivity. Qed.
Print Assumptions C09_unique_in_period.
Print Assumptions C09_period_exact.
Print Assumptions C09_total.

(** ** C10 Two nodes never hand out the same number: refuted *)

(** Datacenters 0 and 2 (as 1 and 3) are indistinguishable: the top bit is shifted out. *)
Theorem C10_refuted : exists d d' w v n m, 0 <= d <= 3 /\ 0 <= d' <= 3 /\ 0 <= w <= 7 /\ d <> d'
  /\ In v (run_gen cyc_next n (NewCycle d w)) /\ In v (run_gen cyc_next m (NewCycle d' w)).
Proof.
  destruct (proj2 (cyc_nodes_collide_iff 0 5 2 5 ltac:(lia) ltac:(lia) ltac:(lia) ltac:(lia))
             (conj eq_refl eq_refl)) as (v & n & m & A & B).
  exists 0, 2, 5, v, n, m. repeat split; auto; lia.
Qed.
(** Exactly which nodes collide. (Missing for the full C10: nodes whose datacenters differ
    by two.) *)
Theorem C10_collide_iff_partial : forall d w d' w', 0 <= d <= 3 -> 0 <= d' <= 3 ->
  0 <= w <= 7 -> 0 <= w' <= 7 ->
  ((exists v n m, In v (run_gen cyc_next n (NewCycle d w)) /\ In v (run_gen cyc_next m (NewCycle d' w')))
   <-> d mod 2 = d' mod 2 /\ w = w').
Proof. exact cyc_nodes_collide_iff. Qed.
Example C10_case : run_gen cyc_next 2 (NewCycle 0 5) = run_gen cyc_next 2 (NewCycle 2 5)
  /\ hd 0 (run_gen cyc_next 2 (NewCycle 1 5)) <> hd 0 (run_gen cyc_next 2 (NewCycle 2 5)).
Proof. split; [vm_compute; reflexivity|vm_compute; discriminate]. Qed.
Print Assumptions C10_refuted.
Print Assumptions C10_collide_iff_partial.

(** ** C11 64-bit message ids strictly increase *)

(** A fresh generator on in-range node numbers, any non-decreasing in-range clock trace (in
    milliseconds since 1970), any number of calls. *)
Theorem C11_increasing : forall d w n clk, 0 <= d < 8 -> 0 <= w < 128 ->
  nondecr_from 0 clk ->
  (forall x, In x clk -> epoch2020 <= x <= epoch2020 + max41) ->
  StronglySorted Z.lt (run_clk sf_next n (NewSnowflake d w) clk).
Proof. change max41 with sf_timestampMax; change epoch2020 with sf_epoch.
  intros d w n clk Hd Hw Hn Hr.
  apply (sf_run_ids n (NewSnowflake d w) clk).
  - unfold sf_inv; cbn; lia.
  - exact Hn.
  - apply Forall_forall. intros x Hx; apply Hr in Hx; lia.
  - apply Forall_forall. intros x Hx; apply Hr in Hx; lia.
Qed.
(** Also from every later state of a generator. *)
Theorem C11_increasing_any_state : forall n s clk, 0 <= sf_dc s < 8 -> 0 <= sf_worker s < 128 ->
  0 <= sf_seq s < 4096 -> nondecr_from (sf_ts s) clk ->
  (forall x, In x clk -> epoch2020 <= x <= epoch2020 + max41) ->
  StronglySorted Z.lt (run_clk sf_next n s clk).
Proof. change max41 with sf_timestampMax; change epoch2020 with sf_epoch.
  intros n s clk Hd Hw Hq Hn Hr.
  apply (sf_run_ids n s clk); auto.
  - unfold sf_inv; auto.
  - apply Forall_forall. intros x Hx; apply Hr in Hx; lia.
  - apply Forall_forall. intros x Hx; apply Hr in Hx; lia.
Qed.
(** The ids are really handed out: a call returns as soon as the clock moves past the last
    used millisecond ... *)
Theorem C11_returns : forall s now clk, (exists x, In x clk /\ sf_ts s < x) ->
  exists r, sf_next s (now :: clk) = Some r.
Proof. exact sf_live. Qed.
(** ... and at one call per millisecond each id is the packed time and node. *)
Theorem C11_ids : forall clk d w, (forall a, In a clk -> epoch2020 <= a <= epoch2020 + max41) ->
  StronglySorted Z.lt clk ->
  run_clk sf_next (length clk) (NewSnowflake d w) clk
  = map (fun now => sf_pack (now - epoch2020) d w 0) clk.
Proof. change max41 with sf_timestampMax; change epoch2020 with sf_epoch.
  intros clk d w H S. apply (sf_run_strict clk (NewSnowflake d w)); auto.
  destruct clk as [|x c]; cbn; [lia|]. specialize (H x (or_introl eq_refl)). unfold sf_epoch in H. lia.
Qed.
(** Whatever the clock shows, every call keeps the node numbers; beyond the representable
    time the id is 0 and the last used millisecond stays, otherwise it is the packed time. *)
Theorem C11_every_call : forall s clk s' v rest, sf_next s clk = Some (s', v, rest) ->
  sf_dc s' = sf_dc s /\ sf_worker s' = sf_worker s /\ 0 <= sf_seq s' < 4096 /\
  exists used now, clk = used ++ now :: rest /\
    (now <= epoch2020 + max41 -> sf_ts s' = now /\ v = sf_pack (now - epoch2020) (sf_dc s) (sf_worker s) (sf_seq s')) /\
    (epoch2020 + max41 < now -> sf_ts s' = sf_ts s /\ v = 0) /\
    (now = sf_ts s -> sf_seq s' <> 0) /\ (used = [] -> now <> sf_ts s -> sf_seq s' = 0) /\
    (used <> [] -> sf_seq s' = 0 /\ sf_ts s < now).
Proof. change max41 with sf_timestampMax; change epoch2020 with sf_epoch.
  assert (SP : forall b clk n r, spin b clk = Some (n, r) -> b < n /\ exists u, clk = u ++ n :: r).
  { intros b clk. induction clk as [|x c IH]; intros n r E; [discriminate|]. cbn [spin] in E.
    destruct (Z.leb_spec x b); [destruct (IH _ _ E) as (L & u & ->); split; [auto|exists (x :: u); reflexivity]|].
    assert (n = x) by congruence. assert (r = c) by congruence. subst. split; [lia|exists []; reflexivity]. }
  intros s clk s' v rest E. destruct clk as [|now0 c]; [discriminate|]. unfold sf_next in E.
  assert (M : forall x, 0 <= Z.land x sf_sequenceMask < 4096).
  { intros x. unfold sf_sequenceMask. change 4095 with (Z.ones 12). rewrite Z.land_ones by lia. apply Z.mod_pos_bound. reflexivity. }
  assert (F : forall now q r, 0 <= q < 4096 ->
    (if sf_timestampMax <? now - sf_epoch then Some (Sf (sf_ts s) (sf_worker s) (sf_dc s) q, 0, r)
     else Some (Sf now (sf_worker s) (sf_dc s) q, sf_pack (now - sf_epoch) (sf_dc s) (sf_worker s) q, r)) = Some (s', v, rest) ->
    r = rest /\ sf_dc s' = sf_dc s /\ sf_worker s' = sf_worker s /\ sf_seq s' = q /\
    (now <= sf_epoch + sf_timestampMax -> sf_ts s' = now /\ v = sf_pack (now - sf_epoch) (sf_dc s) (sf_worker s) q) /\
    (sf_epoch + sf_timestampMax < now -> sf_ts s' = sf_ts s /\ v = 0)).
  { intros now q r Q H. destruct (Z.ltb_spec sf_timestampMax (now - sf_epoch));
      injection H as <- <- <-; cbn [sf_dc sf_worker sf_seq sf_ts]; repeat split; auto; lia. }
  destruct (Z.eqb_spec (sf_ts s) now0) as [Et|Et].
  - destruct (Z.eqb_spec (Z.land (sf_seq s + 1) sf_sequenceMask) 0) as [Ez|Ez].
    + destruct (spin (sf_ts s) c) as [[n r]|] eqn:Sp; [|discriminate].
      destruct (SP _ _ _ _ Sp) as (L & u & Eu). destruct (F n _ r (M _) E) as (<- & A & B & C & D & G). rewrite Ez in C.
      repeat match goal with |- _ /\ _ => split end; auto; try lia.
      exists (now0 :: u), n. rewrite C. rewrite Ez in D. split; [rewrite Eu; reflexivity|].
      repeat match goal with |- _ /\ _ => split end; auto; try lia; try (intros H; discriminate H).
    + destruct (F now0 _ c (M _) E) as (<- & A & B & C & D & G).
      repeat match goal with |- _ /\ _ => split end; auto; try (rewrite C; apply M).
      exists [], now0. rewrite C. repeat match goal with |- _ /\ _ => split end; auto; try congruence; try (intros; exfalso; congruence).
  - destruct (F now0 0 c ltac:(lia) E) as (<- & A & B & C & D & G).
    repeat match goal with |- _ /\ _ => split end; auto; try lia.
    exists [], now0. rewrite C. repeat match goal with |- _ /\ _ => split end; auto; try congruence; try (intros; exfalso; congruence).
Qed.
(** 4100 calls within one millisecond and the next: all answered. *)
Example C11_burst :
  let clk := repeat 1600000000000 4097 ++ repeat 1600000000001 10 in
  length (run_clk sf_next 4100 (NewSnowflake 1 2) clk) = 4100%nat.
Proof. vm_compute. reflexivity. Qed.
Print Assumptions C11_increasing.
Print Assumptions C11_increasing_any_state.
Print Assumptions C11_returns.
Print Assumptions C11_ids.
Print Assumptions C11_every_call.

(** ** C12 64-bit message ids identify their origin *)

Theorem C12_parse : forall t d w q, 0 <= t < 2 ^ 41 -> 0 <= d < 8 -> 0 <= w < 128 -> 0 <= q < 4096 ->
  sf_parse (sf_pack t d w q) = {| sf_ts := t + epoch2020; sf_worker := w; sf_dc := d; sf_seq := q |}.
Proof. change epoch2020 with sf_epoch. exact sf_parse_pack. Qed.
(** Ids handed out by generators with different node numbers never coincide. *)
Theorem C12_nodes_distinct : forall d w d' w' n m clk clk' v,
  0 <= d < 8 -> 0 <= w < 128 -> 0 <= d' < 8 -> 0 <= w' < 128 -> (d, w) <> (d', w') ->
  nondecr_from 0 clk -> nondecr_from 0 clk' ->
  (forall x, In x clk \/ In x clk' -> epoch2020 <= x <= epoch2020 + max41) ->
  In v (run_clk sf_next n (NewSnowflake d w) clk) ->
  ~ In v (run_clk sf_next m (NewSnowflake d' w') clk').
Proof. change max41 with sf_timestampMax; change epoch2020 with sf_epoch.
  intros d w d' w' n m clk clk' v Hd Hw Hd' Hw' Hne Hc Hc' Hr H H'.
  assert (P : forall d w n clk v, 0 <= d < 8 -> 0 <= w < 128 -> nondecr_from 0 clk ->
     (forall x, In x clk -> sf_epoch <= x <= sf_epoch + sf_timestampMax) ->
     In v (run_clk sf_next n (NewSnowflake d w) clk) -> sf_dc (sf_parse v) = d /\ sf_worker (sf_parse v) = w).
  { clear. intros d w n clk v Hd Hw Hn Hr H.
    destruct (sf_run_ids n (NewSnowflake d w) clk) as [_ F].
    - unfold sf_inv; cbn; lia.
    - exact Hn.
    - apply Forall_forall. intros x Hx; apply Hr in Hx; lia.
    - apply Forall_forall. intros x Hx; apply Hr in Hx; lia.
    - rewrite Forall_forall in F. destruct (F v H) as [_ (t & q & Ht & Hq & ->)].
      cbn [NewSnowflake sf_dc sf_worker]. unfold sf_timestampMax in Ht.
      rewrite sf_parse_pack; auto. change (2 ^ 41) with 2199023255552. lia. }
  destruct (P d w n clk v Hd Hw Hc ltac:(auto) H) as [A B].
  destruct (P d' w' m clk' v Hd' Hw' Hc' ltac:(auto) H') as [A' B']. congruence.
Qed.
Example C12_case : sf_parse (sf_pack 22192000000 3 100 7) = Sf 1600000000000 100 3 7.
Proof. vm_compute. reflexivity. Qed.
Print Assumptions C12_parse.
Print Assumptions C12_nodes_distinct.

(** ** C13 Unique under any clock: refuted *)

(** For every node and every millisecond: set the clock back by one and on again, and the
    first id is handed out again. *)
Theorem C13_refuted : forall d w t, epoch2020 < t <= epoch2020 + max41 ->
  exists a b, run_clk sf_next 3 (NewSnowflake d w) [t; t - 1; t] = [a; b; a].
Proof. change max41 with sf_timestampMax; change epoch2020 with sf_epoch. intros d w t H. rewrite sf_clock_back by auto. eauto. Qed.
(** The strongest true form: any clock that never goes back (strictly increasing ids). *)
Theorem C13_monotone_clock_partial : forall d w n clk i j vi vj, 0 <= d < 8 -> 0 <= w < 128 ->
  nondecr_from 0 clk ->
  (forall x, In x clk -> epoch2020 <= x <= epoch2020 + max41) ->
  nth_error (run_clk sf_next n (NewSnowflake d w) clk) i = Some vi ->
  nth_error (run_clk sf_next n (NewSnowflake d w) clk) j = Some vj -> i <> j -> vi <> vj.
Proof. change max41 with sf_timestampMax; change epoch2020 with sf_epoch.
  intros d w n clk i j vi vj Hd Hw Hn Hr Hi Hj Hne.
  pose proof (C11_increasing d w n clk Hd Hw Hn Hr) as S.
  remember (run_clk sf_next n (NewSnowflake d w) clk) as l. clear Heql.
  assert (G : forall (l : list Z) i j vi vj, StronglySorted Z.lt l -> nth_error l i = Some vi ->
     nth_error l j = Some vj -> (i < j)%nat -> vi < vj).
  { clear. induction l as [|x l IH]; intros i j vi vj S Hi Hj Hlt; [destruct i; discriminate|].
    inversion S; subst. destruct j; [lia|]. destruct i.
    - cbn in *. injection Hi as <-. rewrite Forall_forall in H2. apply H2. eapply nth_error_In; eauto.
    - cbn in *. eapply IH; eauto. lia. }
  destruct (Nat.lt_ge_cases i j) as [L|L].
  - specialize (G l i j vi vj S Hi Hj L). lia.
  - specialize (G l j i vj vi S Hj Hi ltac:(lia)). lia.
Qed.
Example C13_case : run_clk sf_next 3 (NewSnowflake 1 1) [1600000000005; 1600000000004; 1600000000005]
  = [sf_pack 22192000005 1 1 0; sf_pack 22192000004 1 1 0; sf_pack 22192000005 1 1 0].
Proof. vm_compute. reflexivity. Qed.
Print Assumptions C13_refuted.
Print Assumptions C13_monotone_clock_partial.

(** ** C14 32-bit ids are unique within a day and identify their origin *)

Theorem C14_increasing_in_day : forall d w n clk, 0 <= d < 4 -> 0 <= w < 8 ->
  nondecr_from 0 clk -> (forall x, In x clk -> x < 86400) ->
  StronglySorted Z.lt (run_clk s32_next n (NewSnowflake32 d w) clk)
  /\ forall v, In v (run_clk s32_next n (NewSnowflake32 d w) clk) ->
     s32_dc (s32_parse v) = d /\ s32_worker (s32_parse v) = w
     /\ 0 <= s32_sec (s32_parse v) < 86400 /\ 0 <= s32_seq (s32_parse v) < 512
     /\ v = s32_pack (s32_sec (s32_parse v)) d w (s32_seq (s32_parse v)).
Proof.
  intros d w n clk Hd Hw Hn Hr.
  destruct (s32_run_ids n (NewSnowflake32 d w) clk) as [S F].
  - unfold s32_inv; cbn; lia.
  - exact Hn.
  - apply Forall_forall. intros x Hx; apply Hr in Hx; lia.
  - split; [exact S|]. intros v Hv. rewrite Forall_forall in F.
    destruct (F v Hv) as [_ (t & q & Ht & Hq & ->)]. cbn [NewSnowflake32 s32_dc s32_worker s32_sec] in *.
    rewrite s32_parse_pack by lia. cbn. repeat split; auto; lia.
Qed.
Theorem C14_parse : forall t d w q, 0 <= t < 86400 -> 0 <= d < 4 -> 0 <= w < 8 -> 0 <= q < 512 ->
  s32_parse (s32_pack t d w q) = {| s32_sec := t; s32_dc := d; s32_worker := w; s32_seq := q |}.
Proof. exact s32_parse_pack. Qed.
(** Every call, whatever the clock shows: the id carries the second shown by the last clock
    reading the call made, the node numbers of the generator, and a sequence number that is
    one more than the last one if that second was the last used one already, else 0; only a
    call that runs out of sequence numbers reads the clock again, until it has moved on. *)
Theorem C14_every_call : forall s clk s' v rest, 0 <= s32_dc s < 4 -> 0 <= s32_worker s < 8 ->
  0 <= s32_seq s < 512 -> (forall x, In x clk -> 0 <= x < 86400) ->
  s32_next s clk = Some (s', v, rest) ->
  exists used now, clk = used ++ now :: rest /\
    s32_sec (s32_parse v) = now /\ s32_dc (s32_parse v) = s32_dc s /\ s32_worker (s32_parse v) = s32_worker s /\
    s' = s32_parse v /\
    (used = [] -> now = s32_sec s -> s32_seq s < 511 /\ s32_seq (s32_parse v) = s32_seq s + 1) /\
    (used = [] -> now <> s32_sec s -> s32_seq (s32_parse v) = 0) /\
    (used <> [] -> hd 0 clk = s32_sec s /\ s32_seq s = 511 /\ s32_sec s < now /\
       (forall x, In x used -> x <= s32_sec s) /\ s32_seq (s32_parse v) = 0).
Proof.
  assert (SP : forall b clk n r, spin b clk = Some (n, r) ->
    b < n /\ exists u, clk = u ++ n :: r /\ forall x, In x u -> x <= b).
  { intros b clk. induction clk as [|x c IH]; intros n r E; [discriminate|]. cbn [spin] in E.
    destruct (Z.leb_spec x b).
    - destruct (IH _ _ E) as (L & u & -> & B). split; [auto|exists (x :: u)]. split; [reflexivity|].
      intros y [<-|Hy]; auto.
    - assert (n = x) by congruence. assert (r = c) by congruence. subst. split; [lia|exists []].
      split; [reflexivity|]. intros y []. }
  intros s clk s' v rest Hd Hw Hq Hr E. destruct clk as [|now0 c]; [discriminate|]. unfold s32_next in E.
  assert (Hn : 0 <= now0 < 86400) by (apply Hr; left; reflexivity).
  rewrite land_511 in E.
  destruct (Z.eqb_spec (s32_sec s) now0) as [Et|Et].
  - destruct (Z.eqb_spec ((s32_seq s + 1) mod 512) 0) as [Ez|Ez].
    + destruct (spin (s32_sec s) c) as [[n r]|] eqn:Sp; [|discriminate].
      destruct (SP _ _ _ _ Sp) as (L & u & Eu & B). rewrite Ez in E. injection E as <- <- <-.
      assert (Q : s32_seq s = 511).
      { destruct (Z.eq_dec (s32_seq s) 511) as [|N]; auto. rewrite Z.mod_small in Ez by lia. lia. }
      assert (Hnn : 0 <= n < 86400) by (apply Hr; right; rewrite Eu; apply in_or_app; right; left; reflexivity).
      exists (now0 :: u), n. rewrite s32_parse_pack by lia. cbn [s32_sec s32_dc s32_worker s32_seq hd].
      split; [rewrite Eu; reflexivity|]. split; [reflexivity|]. split; [reflexivity|]. split; [reflexivity|].
      split; [reflexivity|]. split; [intros H; discriminate H|]. split; [intros H; discriminate H|].
      intros _. repeat split; auto. intros x [<-|Hx]; [lia|auto].
    + assert (Q : s32_seq s < 511).
      { destruct (Z.eq_dec (s32_seq s) 511) as [Q|N]; [rewrite Q in Ez; elim Ez; reflexivity|lia]. }
      rewrite Z.mod_small in E by lia. injection E as <- <- <-.
      exists [], now0. rewrite s32_parse_pack by lia. cbn [s32_sec s32_dc s32_worker s32_seq].
      repeat split; auto; intros; try congruence; try lia.
  - injection E as <- <- <-. exists [], now0. rewrite s32_parse_pack by lia.
    cbn [s32_sec s32_dc s32_worker s32_seq]. repeat split; auto; intros; exfalso; congruence.
Qed.
Example C14_spin_case : s32_next (Sf32 10 1 2 511) [10; 10; 9; 12; 13] = Some (Sf32 12 1 2 0, s32_pack 12 1 2 0, [13]).
Proof. vm_compute. reflexivity. Qed.
Example C14_case : run_clk s32_next 4 (NewSnowflake32 1 2) [10; 10; 11; 11]
  = [s32_pack 10 1 2 0; s32_pack 10 1 2 1; s32_pack 11 1 2 0; s32_pack 11 1 2 1].
Proof. vm_compute. reflexivity. Qed.
Print Assumptions C14_increasing_in_day.
Print Assumptions C14_parse.
Print Assumptions C14_every_call.

(** ** C15 The 32-bit generator always answers: refuted *)

(** After 512 ids in the last second of the day the next call waits for a second of day
    greater than 86399, which no clock ever shows: it never returns, and since it holds the
    mutex neither does any other call. *)
Theorem C15_refuted : forall d w clk, Forall (fun x => 0 <= x <= 86399) clk ->
  s32_next (Sf32 86399 d w 511) (86399%Z :: clk) = None.
Proof. intros d w clk H. apply s32_stuck; auto. Qed.
(** That state is reached by 512 calls in the last second of the day. *)
Theorem C15_reachable : forall d w, 0 <= d < 4 -> 0 <= w < 8 ->
  forall clk, Forall (fun x => 0 <= x <= 86399) clk ->
  length (run_clk s32_next 513 (NewSnowflake32 d w) (repeat 86399%Z 513 ++ clk)) = 512%nat.
Proof.
  intros d w Hd Hw clk Hc.
  assert (G : forall k q clk', 0 <= q -> q + Z.of_nat k = 511 ->
     length (run_clk s32_next (S k) (Sf32 86399 d w q) (repeat 86399%Z (S k) ++ clk'))
     = (k + length (run_clk s32_next 1 (Sf32 86399 d w 511) (86399%Z :: clk')))%nat).
  { induction k; intros q clk' H0 Hq.
    - replace q with 511 by lia. reflexivity.
    - change (repeat 86399%Z (S (S k)) ++ clk') with (86399%Z :: (repeat 86399%Z (S k) ++ clk')).
      specialize (IHk (q + 1) clk' ltac:(lia) ltac:(lia)). remember (S k) as m eqn:Em.
      cbn [run_clk]. unfold s32_next at 1. cbn [s32_sec s32_seq s32_dc s32_worker].
      change (86399 =? 86399) with true. cbv iota.
      rewrite land_511. rewrite Z.mod_small by lia. replace (q + 1 =? 0) with false by lia.
      cbn [length]. rewrite IHk, Em. reflexivity. }
  change (repeat 86399%Z 513 ++ clk) with (86399%Z :: (repeat 86399%Z 512 ++ clk)).
  change (run_clk s32_next 513 (NewSnowflake32 d w) (86399%Z :: (repeat 86399%Z 512 ++ clk)))
    with (s32_pack 86399 d w 0 :: run_clk s32_next 512 (Sf32 86399 d w 0) (repeat 86399%Z 512 ++ clk)).
  cbn [length]. rewrite (G 511%nat 0 clk) by lia. cbn [run_clk].
  rewrite s32_stuck by auto. reflexivity.
Qed.
(** Exactly when a call can return: always, except in that state. *)
Theorem C15_returns_iff_partial : forall s now, 0 <= s32_seq s < 512 -> 0 <= s32_sec s < 86400 -> 0 <= now <= 86399 ->
  ((exists clk r, Forall (fun x => 0 <= x <= 86399) clk /\ s32_next s (now :: clk) = Some r)
   <-> ~ (s32_sec s = 86399 /\ now = 86399 /\ s32_seq s = 511)).
Proof. exact s32_returns_iff. Qed.
Example C15_case : s32_next (Sf32 86399 0 0 511) (86399 :: [0; 1; 2; 86399; 0]) = None
  /\ exists r, s32_next (Sf32 86398 0 0 511) (86398 :: [86398; 86399]) = Some r.
Proof. split; [reflexivity|]. eexists. vm_compute. reflexivity. Qed.
Print Assumptions C15_refuted.
Print Assumptions C15_reachable.
Print Assumptions C15_returns_iff_partial.

(** ** C16 BCD message ids *)

(** A clock reading [m] is the minute MMDDHHMM as a number; the ids made at the readings
    [clk] carry the worker's three bytes, that minute and a counter, all decimal. *)
Theorem C16_format : forall w clk, Forall (fun m => 0 <= m < 10 ^ 8) clk ->
  exists s vs, NewBcdSequence w = Ok s /\ bcd_run s clk = Ok vs
  /\ length (bcd_worker s) = 3%nat /\ Forall bcd_byte (bcd_worker s)
  /\ Forall2 (fun m v => exists q, 0 <= q < 1000000 /\ bcd_id (bcd_worker s) m q v /\ length v = 10%nat) clk vs.
Proof.
  intros w clk Hm. unfold NewBcdSequence.
  set (w1 := if existsb _ _ then _ else _).
  assert (L : 6 <= zlen (repeat 48 6 ++ w1)) by (rewrite zlen_app, zlen_repeat; pose proof (zlen_nonneg w1); lia).
  destruct (slice (repeat 48 6 ++ w1) (zlen (repeat 48 6 ++ w1) - 6) (zlen (repeat 48 6 ++ w1))) as [w3| |] eqn:Es.
  2: { exfalso. apply slice_noerr in Es. auto. }
  2: { exfalso. apply slice_panic_iff in Es. apply Es. lia. }
  cbn [bind]. set (s := Bcd (StoBcd w3) [] 0).
  assert (Lw : length (bcd_worker s) = 3%nat).
  { cbn. apply StoBcd_length. apply slice_len in Es. unfold zlen in *. lia. }
  destruct (bcd_run_ok clk s None Lw ltac:(cbn; lia) Hm eq_refl) as (vs & E & F).
  exists s, vs. split; [reflexivity|]. split; [exact E|]. split; [exact Lw|].
  split; [cbn; apply StoBcd_nibbles|].
  assert (R : forall clk p q vs (W : bytes), Forall (fun m => 0 <= m < 10 ^ 8) clk -> length W = 3%nat ->
    Forall2 (fun mq v => bcd_id W (fst mq) (snd mq) v) (combine clk (bcd_counters p q clk)) vs ->
    Forall2 (fun m v => exists q, 0 <= q < 1000000 /\ bcd_id W m q v /\ length v = 10%nat) clk vs).
  { clear. induction clk as [|m clk IH]; intros p q vs W Hm LW F; cbn [bcd_counters combine] in F;
      inversion F; subst; constructor.
    - eexists. split; [|split; [exact H1|]].
      + destruct p; [destruct (_ =? _)|]; cbn; lia.
      + destruct H1 as (ms & qs & pm & pq & L1 & _ & _ & L2 & _ & _ & P1 & P2 & ->).
        apply packed_length in P1, P2. rewrite !app_length. lia.
    - inversion Hm; subst. eapply IH; eauto. }
  eapply R; eauto.
Qed.
(** Two equal ids: same minute and at least a million ids apart. *)
Theorem C16_unique : forall w clk s vs i j vi vj, NewBcdSequence w = Ok s ->
  nondecr_from 0 clk -> Forall (fun m => 0 <= m < 10 ^ 8) clk ->
  bcd_run s clk = Ok vs ->
  nth_error vs i = Some vi -> nth_error vs j = Some vj -> (i < j)%nat -> vi = vj ->
  nth_error clk i = nth_error clk j /\ 1000000 <= Z.of_nat (j - i).
Proof. exact bcd_unique. Qed.
(** Which three bytes: for a worker given in digits, its last six ones, padded with zeros on
    the left; zeros if the code of some character is not that of a digit, modulo 256. *)
Definition last_six (w : bytes) : bytes := skipn (length w) (repeat 48 6 ++ w).
Theorem C16_worker : forall w,
  exists s, NewBcdSequence w = Ok s /\
    ((forall c, In c w -> 48 <= c <= 57) -> packed_bcd (last_six w) (bcd_worker s) /\ BcdToString (bcd_worker s) = last_six w) /\
    (forall cs, utf8_text cs w -> (exists c, In c cs /\ ~ 48 <= c mod 256 <= 57) -> bcd_worker s = [0; 0; 0]).
Proof.
  intros w. unfold NewBcdSequence.
  assert (RW : (forall c, In c w -> 0 <= c < 128) -> runes w = w).
  { clear. intros H. apply runes_text. induction w as [|c w IH]; [constructor|].
    apply (utf8_cons c w [c] w); [constructor; specialize (H c (or_introl eq_refl)); lia|].
    apply IH. intros x Hx. apply H. right. exact Hx. }
  assert (SL : forall v, slice (repeat 48 6 ++ v) (zlen (repeat 48 6 ++ v) - 6) (zlen (repeat 48 6 ++ v)) = Ok (last_six v)).
  { intros v. unfold slice, last_six.
    assert (L : zlen (repeat 48 6 ++ v) = 6 + zlen v) by (rewrite zlen_app, zlen_repeat; reflexivity).
    rewrite L. pose proof (zlen_nonneg v).
    replace ((0 <=? 6 + zlen v - 6) && (6 + zlen v - 6 <=? 6 + zlen v) && (6 + zlen v <=? 6 + zlen v)) with true
      by (symmetry; rewrite !andb_true_iff, !Z.leb_le; lia).
    f_equal. replace (Z.to_nat (6 + zlen v - 6)) with (length v) by (unfold zlen; lia).
    apply firstn_all2. rewrite skipn_length, app_length, repeat_length. lia. }
  set (w1 := if existsb _ _ then _ else _). rewrite (SL w1). cbn [bind]. eexists. split; [reflexivity|].
  cbn [bcd_worker]. split.
  - intros D. assert (A : forall c, In c w -> 0 <= c < 128) by (intros c Hc; specialize (D c Hc); lia).
    assert (E1 : w1 = w).
    { unfold w1. rewrite (RW A).
      destruct (existsb _ w) eqn:X; [|reflexivity].
      exfalso. apply existsb_exists in X as (c & Hc & B). specialize (D c Hc).
      unfold u8 in B. rewrite Z.mod_small in B by lia.
      apply orb_true_iff in B as [B|B]; apply Z.ltb_lt in B; lia. }
    rewrite E1.
    assert (DP : forall n (v : bytes), length v = (2 * n)%nat -> Forall (fun c => 48 <= c <= 57) v -> exists b, packed_bcd v b).
    { clear. induction n as [|n IH]; intros v L F.
      - destruct v; [|discriminate]. exists []. constructor.
      - destruct v as [|h [|l v]]; [discriminate|cbn in L; lia|]. inversion F as [|? ? H1 F1]; subst. inversion F1 as [|? ? H2 F2]; subst.
        destruct (IH v ltac:(cbn in L; lia) F2) as (b & P). exists ((h - 48) * 16 + (l - 48) :: b).
        replace h with (48 + (h - 48)) at 1 by lia. replace l with (48 + (l - 48)) at 1 by lia.
        constructor; [lia|lia|exact P]. }
    assert (P : exists b, packed_bcd (last_six w) b).
    { apply (DP 3%nat).
      - unfold last_six. rewrite skipn_length, app_length, repeat_length. lia.
      - apply Forall_forall. intros c Hc. unfold last_six in Hc.
        assert (Hi : In c (repeat 48 6 ++ w)) by (rewrite <- (firstn_skipn (length w)); apply in_or_app; right; exact Hc).
        apply in_app_or in Hi as [Hi|Hi]; [apply repeat_spec in Hi; lia|apply D; exact Hi]. }
    destruct P as (b & P). rewrite (StoBcd_packed _ _ P). split; [exact P|exact (BcdToString_packed _ _ P)].
  - intros cs A (c & Hc & B).
    assert (E1 : w1 = repeat 48 6).
    { unfold w1. rewrite (runes_text _ _ A).
      destruct (existsb _ cs) eqn:X; [reflexivity|].
      exfalso. enough (existsb (fun r => (57 <? u8 r) || (u8 r <? 48)) cs = true) by congruence.
      apply existsb_exists. exists c. split; [exact Hc|].
      unfold u8. apply orb_true_iff. rewrite !Z.ltb_lt. lia. }
    rewrite E1. vm_compute. reflexivity.
Qed.
Example C16_worker_case : last_six [49;50] = [48;48;48;48;49;50]
  /\ last_six [57;49;50;51;52;53;54;55] = [50;51;52;53;54;55]
  /\ (exists s, NewBcdSequence [57;49;50;51;52;53;54;55] = Ok s /\ bcd_worker s = [35; 69; 103])
  /\ (exists s, NewBcdSequence [57;65;50] = Ok s /\ bcd_worker s = [0; 0; 0]).
Proof. vm_compute. repeat split; eexists; split; reflexivity. Qed.
Example C16_case :
  bind (NewBcdSequence [49;50;51]) (fun s => bcd_run s [11160105; 11160105; 11160106])
  = Ok [[0;1;35;17;22;1;5;0;0;0]; [0;1;35;17;22;1;5;0;0;1]; [0;1;35;17;22;1;6;0;0;0]].
Proof. vm_compute. reflexivity. Qed.
Print Assumptions C16_format.
Print Assumptions C16_unique.
Print Assumptions C16_worker.

(** ** C17 SGIP sequence numbers *)

(** The counters alone differ (hence the numbers do). *)
Theorem C17_unique : forall s clk i j vi vj, nth_error (sg_run s clk) i = Some vi ->
  nth_error (sg_run s clk) j = Some vj -> i <> j ->
  Z.abs (Z.of_nat i - Z.of_nat j) < 2 ^ 32 -> snd vi <> snd vj.
Proof. exact sg_unique. Qed.
(** Each carries the node number and the time of its own call. *)
Theorem C17_node_and_time : forall s clk i v t, nth_error (sg_run s clk) i = Some v ->
  nth_error clk i = Some t ->
  1 <= t_mon t <= 12 -> 1 <= t_day t <= 31 -> 0 <= t_hour t <= 23 -> 0 <= t_min t <= 59 -> 0 <= t_sec t <= 59 ->
  fst (fst v) = sg_node s
  /\ snd (fst v) = t_mon t * 100000000 + t_day t * 1000000 + t_hour t * 10000 + t_min t * 100 + t_sec t.
Proof.
  intros s clk i v t H Ht H1 H2 H3 H4 H5. apply sg_run_nth in H as (t' & Ht' & ->).
  rewrite Ht in Ht'. injection Ht' as <-. cbn [fst snd]. split; auto.
  apply (sg_ts_value t H1 H2 H3 H4 H5 s).
Qed.
Theorem C17_total : forall clk s, length (sg_run s clk) = length clk.
Proof. induction clk; intros s; cbn [sg_run]; auto. destruct (sg_next s a). cbn. auto. Qed.
Example C17_case : sg_run (SgSeq 3000012345 0 4294967280) [Tod 11 16 1 5 30; Tod 11 16 1 5 31]
  = [(3000012345, 1116010530, 15); (3000012345, 1116010531, 46)].
Proof. vm_compute. reflexivity. Qed.
Print Assumptions C17_unique.
Print Assumptions C17_node_and_time.
Print Assumptions C17_total.
