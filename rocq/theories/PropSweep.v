(** * PropSweep: the sweepers of the caches by sequence id and by message id (C72). *)
From Verif Require Import Base UtilsModel UtilsProofs SeqModel SeqProofs OptionsModel SgipModel FrameModel ClientModel SpecClient ClientProofs PropClient.

(** ** Specification *)
(** The result at [p] is expired: it was sent more than [d] before [now]. *)
Definition is_expired (heap : list result) (d now : Z) (p : nat) : Prop := exists r, nth_error heap p = Some r /\ rt_send r + d < now.
(** The gateway uses one message id per packet: two SGIP submit answers that agree in the last two
    numbers agree in the first. *)
Definition one_id (log : list cobs) : Prop :=
  forall o o' a a', In o log -> In o' log -> sg_answer o = Some a -> sg_answer o' = Some a' -> sa_b a = sa_b a' -> sa_c a = sa_c a' -> sa_a a = sa_a a'.
Definition is_sweep (e : cevent) : Prop := match e with CSweepQ _ _ _ | CSweepS _ _ | CSweepM _ _ => True | _ => False end.

(** ** Removing keys *)
Lemma text_ok a b : text_eqb a b = true <-> a = b.
Proof. split; [apply text_eqb_eq|]. intros ->. unfold text_eqb. destruct (list_eq_dec Z.eq_dec b b); congruence. Qed.
Lemma in_removes {K V} (eqb : K -> K -> bool) (eqb_ok : forall a b, eqb a b = true <-> a = b) ks : forall (m : list (K * V)) k v,
  In (k, v) (fold_left (fun m k => remove eqb k m) ks m) <-> In (k, v) m /\ ~ In k ks.
Proof.
  induction ks as [|x ks IH]; intros m k v; cbn [fold_left In]; [tauto|]. rewrite IH. unfold remove. rewrite filter_In. cbn [fst].
  destruct (eqb x k) eqn:E; cbn [negb].
  - apply eqb_ok in E. subst. split; [intros [[_ X] _]; discriminate X|intros [_ X]; exfalso; apply X; auto].
  - assert (x <> k) by (intros ->; assert (eqb k k = true) by (apply eqb_ok; reflexivity); congruence). tauto.
Qed.
Lemma nodup_store_at {K V} (eqb : K -> K -> bool) (eqb_ok : forall a b, eqb a b = true <-> a = b) k (v : V) m : NoDup (map fst m) -> NoDup (map fst (store_at eqb k v m)).
Proof.
  intros H. cbn [store_at map fst]. constructor.
  - intros X. apply in_map_iff in X as ([k' v'] & E & X). cbn in E. subst k'. unfold remove in X. apply filter_In in X as [_ X]. cbn [fst] in X. assert (eqb k k = true) by (apply eqb_ok; reflexivity). rewrite H0 in X. discriminate X.
  - apply NoDup_filter_fst. exact H.
Qed.
Lemma nodup_fst {K V} (m : list (K * V)) k v v' : NoDup (map fst m) -> In (k, v) m -> In (k, v') m -> v = v'.
Proof.
  induction m as [|[a b] m IH]; cbn [map fst]; intros N X Y; [destruct X|]. inversion N as [|? ? N1 N2]; subst.
  destruct X as [X|X], Y as [Y|Y]; [congruence| | |auto].
  - injection X as -> ->. exfalso. apply N1. apply (in_map fst) in Y. exact Y.
  - injection Y as -> ->. exfalso. apply N1. apply (in_map fst) in X. exact X.
Qed.

(** ** The cache by sequence id *)
Lemma seq_nodup_run pr l es c : crun pr (cstart l) es = Ok c -> NoDup (map fst (ca_seq (ct_ca c))).
Proof.
  revert c. induction es as [|e es IH] using rev_ind; intros c H; [cbn in H; injection H as <-; constructor|].
  rewrite crun_app in H. apply bind_ok in H as (c0 & E & H). cbn [crun] in H. apply bind_ok in H as (c1 & E1 & H). injection H as <-. specialize (IH c0 E).
  pose proof (sinv_run pr es _ _ (sinv_start l) E) as I. destruct (step_kinds pr c0 e c1 I E1) as [l0 EL Q ES EH|t pp phone b now -> EL EH ES|i seq body o rr out -> D EL EC|d now -> EL EC].
  - rewrite ES. exact IH.
  - rewrite ES. apply nodup_store_at; [apply ckey_ok|exact IH].
  - rewrite EC. destruct (answered_keeps (ct_ca c0) (U64 (Sequence2Uint64 (sh_seq (sr_h rr)))) (sr_status rr) (Sequence2String (sh_seq (sr_h rr))) (g_now o)) as (_ & _ & _ & _ & _ & S & _). rewrite S. exact IH.
  - rewrite EC. unfold cleanRequestIdCacheMap. cbn [ca_seq]. apply nodup_removes. exact IH.
Qed.
(** One round removes exactly the entries of expired results from the cache by sequence id and
    changes nothing else. *)
Theorem C72_seq : forall pr sessions es c d now c1, crun pr (cstart sessions) es = Ok c -> cstep pr c (CSweepS d now) = Ok c1 ->
  (forall k p, In (k, p) (ca_seq (ct_ca c1)) <-> In (k, p) (ca_seq (ct_ca c)) /\ ~ is_expired (ca_heap (ct_ca c)) d now p) /\
  ca_heap (ct_ca c1) = ca_heap (ct_ca c) /\ ca_msg (ct_ca c1) = ca_msg (ct_ca c) /\ ca_query (ct_ca c1) = ca_query (ct_ca c) /\
  ct_sess c1 = ct_sess c /\ ct_send c1 = ct_send c /\ ct_log c1 = ct_log c.
Proof.
  intros pr sessions es c d now c1 H S. pose proof (sinv_run pr es _ _ (sinv_start sessions) H) as I. pose proof (seq_nodup_run _ _ _ _ H) as ND.
  cbn [cstep] in S. injection S as <-. split; [|repeat split; reflexivity]. intros k p. cbn [put_ca ct_ca cleanRequestIdCacheMap ca_seq]. rewrite (in_removes _ ckey_ok).
  pose proof (si_seq _ I) as SI. rewrite Forall_forall in SI. split; intros [X Y]; (split; [exact X|]).
  - intros (r & N & L). apply Y. apply in_flat_map. exists (k, p). split; [exact X|]. cbn [snd]. unfold old. rewrite N. replace (rt_send r + d <? now) with true by lia. left.
    destruct (SI _ X) as (r' & K & N'). cbn [fst snd] in K, N'. congruence.
  - intros Z. apply in_flat_map in Z as ([k' p'] & X' & O). cbn [snd] in O. unfold old in O. destruct (nth_error (ca_heap (ct_ca c)) p') as [r|] eqn:N; [|destruct O].
    destruct (rt_send r + d <? now) eqn:L; [|destruct O]. destruct O as [O|[]]. destruct (SI _ X') as (r' & K & N'). cbn [fst snd] in K, N'. assert (KK : k' = k) by congruence. rewrite KK in X'.
    rewrite (nodup_fst _ _ _ _ ND X X') in Y. apply Y. exists r. split; [exact N|lia].
Qed.
(** A gateway's answer to a packet whose entry was removed changes nothing; the cache gets empty once
    everything in it is expired. *)
Theorem C72_empty : forall pr sessions es c d now c1, crun pr (cstart sessions) es = Ok c -> cstep pr c (CSweepS d now) = Ok c1 ->
  Forall (fun r => rt_send r + d < now) (ca_heap (ct_ca c)) -> ca_seq (ct_ca c1) = [].
Proof.
  intros pr sessions es c d now c1 H S F. destruct (C72_seq _ _ _ _ _ _ _ H S) as [A _]. pose proof (si_seq _ (sinv_run pr es _ _ (sinv_start sessions) H)) as SI. rewrite Forall_forall in F, SI.
  destruct (ca_seq (ct_ca c1)) as [|[k p] m]; [reflexivity|]. exfalso. destruct (proj1 (A k p) (or_introl eq_refl)) as [X NE]. apply NE. destruct (SI _ X) as (r & _ & N). exists r. split; [exact N|]. apply F. eapply nth_error_In. exact N.
Qed.

(** ** The cache by message id *)
Lemma msg_step pr c e c1 : sinv c -> cstep pr c e = Ok c1 ->
  ca_msg (ct_ca c1) = ca_msg (ct_ca c) \/ (exists d now, e = CSweepM d now) \/
  exists i seq body o r, e = CGot i 2147483651 seq body o /\ srsp_Decode 2147483651 seq body = Ok r /\ In (OGotP i P_SGIP 2147483651 seq body) (ct_log c1) /\
    ct_ca c1 = answered (ct_ca c) (U64 (Sequence2Uint64 (sh_seq (sr_h r)))) (sr_status r) (Sequence2String (sh_seq (sr_h r))) (g_now o).
Proof.
  intros I H. destruct e as [q msg ops phones|t choice d now|t ok now|t now|t|i cmd seq body o|i|h d now|d now|d now]; cbn [cstep] in H.
  - left. destruct phones; injection H as <-; reflexivity.
  - left. destruct (nth_error (ct_send c) t) as [s|]; [|injection H as <-; reflexivity]. destruct (sn_ph s); try (injection H as <-; reflexivity). destruct (sn_todo s); [injection H as <-; reflexivity|].
    destruct choice as [i|]; [|injection H as <-; reflexivity]. destruct (nth_error (ct_sess c) i) as [ss|]; [|injection H as <-; reflexivity]. destruct (HealthCheck ss); [|injection H as <-; reflexivity].
    destruct (cs_ac ss); [|injection H as <-; reflexivity]. apply bind_ok in H as (parts & _ & H).
    destruct parts; injection H as <-; unfold say; cbn [ct_ca]; try match goal with |- context [used ?c2 i now] => destruct (used_rest c2 i now) as (U1 & U2 & U3) end; rewrite ?U1; reflexivity.
  - left. destruct (nth_error (ct_send c) t) as [s|]; [|injection H as <-; reflexivity]. destruct (sn_ph s) as [|i phone parts done|i phone b key parts done|]; try (injection H as <-; reflexivity). destruct parts as [|[enc key] r]; [injection H as <-; reflexivity|].
    destruct (nth_error (ct_sess c) i) as [ss|]; [|injection H as <-; reflexivity]. apply bind_ok in H as (b & B & H). destruct ok; [injection H as <-; reflexivity|].
    apply bind_ok in H as (s1 & CL & H). injection H as <-. unfold say; cbn [ct_ca]. match goal with |- context [used ?c2 i now] => destruct (used_rest c2 i now) as (U1 & U2 & U3) end; rewrite ?U1; reflexivity.
  - left. destruct (nth_error (ct_send c) t) as [s|]; [|injection H as <-; reflexivity]. destruct (sn_ph s) as [|i phone parts done|i phone b key r done|]; try (injection H as <-; reflexivity). cbv zeta in H.
    destruct r; injection H as <-; try match goal with |- context [used ?c2 i now] => destruct (used_rest c2 i now) as (U1 & U2 & U3) end; rewrite ?U1; reflexivity.
  - left. destruct (nth_error (ct_send c) t) as [s|]; [|injection H as <-; reflexivity]. destruct (sn_ph s); try (injection H as <-; reflexivity). destruct (sn_todo s); injection H as <-; reflexivity.
  - destruct (nth_error (ct_sess c) i) as [ss|]; [|injection H as <-; left; reflexivity]. apply bind_ok in H as ([[s1 ca] out] & G & H). injection H as <-.
    apply handler_eff in G as [GP G]. apply (heff_got c) in G; [|exact I]. destruct (cs_p ss) eqn:P; cbn [got_eff] in G; [left; cbn; rewrite G; reflexivity| |left; cbn; rewrite G; reflexivity].
    destruct (cmd =? 2147483651) eqn:C; [|left; cbn; rewrite G; reflexivity]. apply Z.eqb_eq in C. subst cmd. destruct G as (r & D & G). right. right. exists i, seq, body, o, r.
    split; [reflexivity|]. split; [exact D|]. split; [cbn; apply in_app_iff; right; left; reflexivity|exact G].
  - left. destruct (nth_error (ct_sess c) i) as [ss|]; [|injection H as <-; reflexivity]. apply bind_ok in H as (s1 & CL & H). injection H as <-. reflexivity.
  - left. injection H as <-. cbn. unfold cleanQueryCacheMap. destruct (sweep_query _ _ _ _ _ _ _ _) as [[ex ba] out]. reflexivity.
  - left. injection H as <-. reflexivity.
  - right. left. eauto.
Qed.

Lemma s2s_answer seq body r : srsp_Decode 2147483651 seq body = Ok r -> 
  exists a, sg_answer (OGotP 0 P_SGIP 2147483651 seq body) = Some a /\ sh_seq (sr_h r) = (sa_a a, sa_b a, sa_c a).
Proof.
  intros D. destruct (srsp_fields _ _ _ _ D) as (L9 & SQ & ST). cbn [sg_answer]. rewrite Z.eqb_refl. replace (9 <=? zlen body) with true by lia. eexists. split; [reflexivity|]. exact SQ.
Qed.
(** Every entry is there because of an answer with its text and the key of its result, and the
    result still has that message id. *)
Definition minv (c : cstate) : Prop :=
  forall m p, In (m, p) (ca_msg (ct_ca c)) -> exists r o a, nth_error (ca_heap (ct_ca c)) p = Some r /\ rt_msgid r = m /\
    In o (ct_log c) /\ sg_answer o = Some a /\ m = Sequence2String (sa_a a, sa_b a, sa_c a) /\ rt_seq r = Sequence2Uint64 (sa_a a, sa_b a, sa_c a).
Lemma answer_range o a : sg_answer o = Some a -> (exists i seq body, o = OGotP i P_SGIP 2147483651 seq body /\ (0 <= seq < 2 ^ 32 -> bytes_ok body -> 0 <= sa_b a < 2 ^ 32 /\ 0 <= sa_c a < 2 ^ 32)).
Proof.
  intros H. destruct o as [| | | | |i p cmd seq body|]; try discriminate H. cbn [sg_answer] in H. destruct p; try discriminate H. destruct (cmd =? 2147483651) eqn:C; [|discriminate H]. destruct (9 <=? zlen body) eqn:L; [|discriminate H].
  cbn [andb] in H. injection H as <-. apply Z.eqb_eq in C. subst cmd. exists i, seq, body. split; [reflexivity|]. intros _ B. cbn [sa_b sa_c].
  assert (L4 : zlen (firstn 4 body) = 4) by (unfold zlen, bytes in *; rewrite firstn_length; lia). assert (L8 : zlen (firstn 4 (skipn 4 body)) = 4) by (unfold zlen, bytes in *; rewrite firstn_length, skipn_length; lia).
  pose proof (unbe_range (firstn 4 body) (bytes_ok_firstn _ _ B)) as R1. pose proof (unbe_range (firstn 4 (skipn 4 body)) (bytes_ok_firstn _ _ (bytes_ok_skipn _ _ B))) as R2. rewrite L4 in R1. rewrite L8 in R2. split; assumption.
Qed.
Lemma s2u_inj b c b' c' x x' : 0 <= b < 2 ^ 32 -> 0 <= c < 2 ^ 32 -> 0 <= b' < 2 ^ 32 -> 0 <= c' < 2 ^ 32 -> Sequence2Uint64 (x, b, c) = Sequence2Uint64 (x', b', c') -> b = b' /\ c = c'.
Proof. intros B C B' C' E. cbn [Sequence2Uint64] in E. rewrite !Z.shiftl_mul_pow2 in E by lia. rewrite !lor_disjoint in E by lia. lia. Qed.
Definition log_ok (log : list cobs) : Prop := forall i p cmd seq body, In (OGotP i p cmd seq body) log -> 0 <= seq < 2 ^ 32 /\ bytes_ok body.
Lemma log_ok_run pr l es c : crun pr (cstart l) es = Ok c -> Forall got_ok es -> log_ok (ct_log c).
Proof.
  revert c. induction es as [|e es IH] using rev_ind; intros c H G; [cbn in H; injection H as <-; intros i p cmd seq body []|].
  rewrite crun_app in H. apply bind_ok in H as (c0 & E & H). cbn [crun] in H. apply bind_ok in H as (c1 & E1 & H). injection H as <-. apply Forall_app in G as [G1 G2]. specialize (IH c0 E G1). apply Forall_inv in G2.
  assert (X : forall i p cmd seq body, In (OGotP i p cmd seq body) (ct_log c1) -> In (OGotP i p cmd seq body) (ct_log c0) \/ exists o, e = CGot i cmd seq body o).
  { clear IH G1 G2 E. intros i0 p0 cmd0 seq0 body0 X. assert (SAY : forall (c2 : cstate) l0, ct_log c2 = ct_log c0 ++ l0 -> (forall x, In x l0 -> match x with OGotP _ _ _ _ _ => False | _ => True end) -> In (OGotP i0 p0 cmd0 seq0 body0) (ct_log c2) -> In (OGotP i0 p0 cmd0 seq0 body0) (ct_log c0)).
    { intros c2 l0 EL NO Y. rewrite EL in Y. apply in_app_iff in Y as [Y|Y]; [exact Y|]. destruct (NO _ Y). }
    destruct e as [q msg ops phones|t choice d now|t ok now|t now|t|i cmd seq body o|i|h d now|d now|d now]; cbn [cstep] in E1.
    - left. destruct phones; injection E1 as <-; cbn in X; [apply in_app_iff in X as [X|[X|[]]]; [exact X|discriminate X]|exact X].
    - left. destruct (nth_error (ct_send c0) t) as [s|]; [|injection E1 as <-; exact X]. destruct (sn_ph s); try (injection E1 as <-; exact X). destruct (sn_todo s) as [|phone rest]; [injection E1 as <-; exact X|].
      destruct choice as [i|]; [|injection E1 as <-; cbn in X; apply in_app_iff in X as [X|[X|[]]]; [exact X|discriminate X]]. destruct (nth_error (ct_sess c0) i) as [ss|]; [|injection E1 as <-; exact X]. destruct (HealthCheck ss); [|injection E1 as <-; exact X].
      destruct (cs_ac ss); [|injection E1 as <-; exact X]. apply bind_ok in E1 as (parts & _ & E1).
      destruct parts; injection E1 as <-; unfold say in X; cbn [ct_log] in X; try match type of X with context [used ?c2 i now] => destruct (used_rest c2 i now) as (U1 & U2 & U3) end; rewrite ?U3 in X; cbn in X; apply in_app_iff in X as [X|[X|[]]]; try exact X; discriminate X.
    - left. destruct (nth_error (ct_send c0) t) as [s|]; [|injection E1 as <-; exact X]. destruct (sn_ph s) as [|i phone parts done|i phone b key parts done|]; try (injection E1 as <-; exact X). destruct parts as [|[enc key] r]; [injection E1 as <-; exact X|].
      destruct (nth_error (ct_sess c0) i) as [ss|]; [|injection E1 as <-; exact X]. apply bind_ok in E1 as (b & B & E1). destruct ok; [injection E1 as <-; cbn in X; apply in_app_iff in X as [X|[X|[]]]; [exact X|discriminate X]|].
      apply bind_ok in E1 as (s1 & CL & E1). injection E1 as <-. unfold say in X; cbn [ct_log] in X. match type of X with context [used ?c2 i now] => destruct (used_rest c2 i now) as (U1 & U2 & U3) end; rewrite ?U3 in X; cbn in X; apply in_app_iff in X as [X|[X|[]]]; [exact X|discriminate X].
    - left. destruct (nth_error (ct_send c0) t) as [s|]; [|injection E1 as <-; exact X]. destruct (sn_ph s) as [|i phone parts done|i phone b key r done|]; try (injection E1 as <-; exact X). cbv zeta in E1.
      destruct r; injection E1 as <-; try match type of X with context [used ?c2 i now] => destruct (used_rest c2 i now) as (U1 & U2 & U3) end; rewrite ?U3 in X; cbn in X; apply in_app_iff in X as [X|[X|[]]]; try exact X; discriminate X.
    - left. destruct (nth_error (ct_send c0) t) as [s|]; [|injection E1 as <-; exact X]. destruct (sn_ph s); try (injection E1 as <-; exact X). destruct (sn_todo s); injection E1 as <-; [|exact X]. cbn in X; apply in_app_iff in X as [X|[X|[]]]; [exact X|discriminate X].
    - destruct (nth_error (ct_sess c0) i) as [ss|]; [|injection E1 as <-; left; exact X]. apply bind_ok in E1 as ([[s1 ca] out] & G & E1). injection E1 as <-. cbn in X. apply in_app_iff in X as [X|[X|X]]; [left; exact X| |].
      + right. injection X as <- <- <- <- <-. eauto.
      + exfalso. apply in_map_iff in X as (y & Y & _). discriminate Y.
    - left. destruct (nth_error (ct_sess c0) i) as [ss|]; [|injection E1 as <-; exact X]. apply bind_ok in E1 as (s1 & CL & E1). injection E1 as <-. exact X.
    - left. injection E1 as <-. exact X.
    - left. injection E1 as <-. exact X.
    - left. injection E1 as <-. exact X. }
  intros i p cmd seq body Y. destruct (X _ _ _ _ _ Y) as [Z|(o & ->)]; [exact (IH _ _ _ _ _ Z)|exact G2].
Qed.
Lemma log_grows c e c1 : step_kind c e c1 -> exists l, ct_log c1 = ct_log c ++ l.
Proof. intros [l EL Q ES EH|t pp phone b now _ EL EH ES|i seq body o rr out _ D EL EC|d now _ EL EC]; try (eexists; exact EL). exists []. rewrite EL, app_nil_r. reflexivity. Qed.
Lemma minv_keep c c1 : minv c -> (forall x, In x (ca_msg (ct_ca c1)) -> In x (ca_msg (ct_ca c))) -> (exists l, ct_log c1 = ct_log c ++ l) ->
  (forall p r, nth_error (ca_heap (ct_ca c)) p = Some r -> exists r1, nth_error (ca_heap (ct_ca c1)) p = Some r1 /\ rt_msgid r1 = rt_msgid r /\ rt_seq r1 = rt_seq r) -> minv c1.
Proof.
  intros M IN (l & EL) H m p X. destruct (M m p (IN _ X)) as (r & o & a & N & E & O & A & T & K). destruct (H p r N) as (r1 & N1 & E1 & K1). exists r1, o, a.
  split; [exact N1|]. split; [congruence|]. split; [rewrite EL; apply in_app_iff; auto|]. split; [exact A|]. split; [exact T|congruence].
Qed.
Lemma minv_answer c c1 i seq body o r : sinv c -> minv c -> one_id (ct_log c1) -> log_ok (ct_log c1) -> (exists l, ct_log c1 = ct_log c ++ l) ->
  srsp_Decode 2147483651 seq body = Ok r -> In (OGotP i P_SGIP 2147483651 seq body) (ct_log c1) ->
  ct_ca c1 = answered (ct_ca c) (U64 (Sequence2Uint64 (sh_seq (sr_h r)))) (sr_status r) (Sequence2String (sh_seq (sr_h r))) (g_now o) -> minv c1.
Proof.
  intros I M ONE LOK (l & EL) D IN EC. destruct (s2s_answer _ _ _ D) as (a & SA & SQ). change (sg_answer (OGotP i P_SGIP 2147483651 seq body) = Some a) in SA. rewrite SQ in EC. unfold answered in EC.
  destruct (load ckey_eqb (U64 (Sequence2Uint64 (sa_a a, sa_b a, sa_c a))) (ca_seq (ct_ca c))) as [p0|] eqn:L.
  2: { apply (minv_keep c); [exact M|rewrite EC; auto|eauto|]. intros p r0 N. exists r0. rewrite EC. auto. }
  apply load_in in L as (k & KE & L). apply ckey_ok in KE. subst k. pose proof (si_seq _ I) as SI. rewrite Forall_forall in SI. destruct (SI _ L) as (r0 & K0 & N0). cbn [fst snd] in K0, N0.
  assert (K : rt_seq r0 = Sequence2Uint64 (sa_a a, sa_b a, sa_c a)) by congruence.
  assert (HP : nth_error (ca_heap (ct_ca c1)) p0 = Some (set_answer (sr_status r) (Sequence2String (sa_a a, sa_b a, sa_c a)) (g_now o) r0)).
  { rewrite EC. cbn [ca_heap]. rewrite upd_heap_nth, Nat.eqb_refl, N0. reflexivity. }
  intros m p X. rewrite EC in X. cbn [ca_msg] in X. apply (in_store _ text_ok) in X as [[-> ->]|[NE X]].
  - exists (set_answer (sr_status r) (Sequence2String (sa_a a, sa_b a, sa_c a)) (g_now o) r0), (OGotP i P_SGIP 2147483651 seq body), a. repeat (split; [first [assumption|reflexivity]|]). exact K.
  - destruct (M m p X) as (r1 & o1 & a1 & N1 & E1 & O1 & A1 & T1 & K1). destruct (Nat.eq_dec p p0) as [->|NP].
    + exfalso. apply NE. rewrite T1. assert (r1 = r0) by congruence. subst r1.
      assert (IN1 : In o1 (ct_log c1)) by (rewrite EL; apply in_app_iff; auto).
      destruct (answer_range _ _ SA) as (i2 & s2 & b2 & E2 & R2). injection E2 as <- <- <-. destruct (LOK _ _ _ _ _ IN) as [LS LB]. destruct (R2 LS LB) as [B C].
      destruct (answer_range _ _ A1) as (i3 & s3 & b3 & E3 & R3). subst o1. destruct (LOK _ _ _ _ _ IN1) as [LS1 LB1]. destruct (R3 LS1 LB1) as [B1 C1].
      rewrite K in K1. apply s2u_inj in K1 as [EB EC2]; auto. rewrite (ONE _ _ _ _ IN IN1 SA A1 EB EC2), EB, EC2. reflexivity.
    + exists r1, o1, a1. split; [|split; [exact E1|]; split; [rewrite EL; apply in_app_iff; auto|]; auto]. rewrite EC. cbn [ca_heap]. rewrite upd_heap_nth. replace (p =? p0)%nat with false by (symmetry; apply Nat.eqb_neq; exact NP). exact N1.
Qed.
Lemma minv_step pr c e c1 : sinv c -> cstep pr c e = Ok c1 -> one_id (ct_log c1) -> log_ok (ct_log c1) -> minv c -> minv c1.
Proof.
  intros I S ONE LOK M. pose proof (step_kinds pr c e c1 I S) as K. pose proof (log_grows _ _ _ K) as G.
  destruct (msg_step pr c e c1 I S) as [E|[(d & now & ->)|(i & seq & body & o & r & -> & D & IN & EC)]].
  - destruct K as [l EL Q ES EH|t pp phone b now -> EL EH ES|i seq body o rr out -> D EL EC|d now -> EL EC].
    + apply (minv_keep c); [exact M|rewrite E; auto|exact G|]. intros p r N. destruct (map_fwd core _ _ p r (eq_sym EH) N) as (r1 & N1 & E1). exists r1. split; [exact N1|]. injection E1. auto.
    + apply (minv_keep c); [exact M|rewrite E; auto|exact G|]. intros p r N. exists r. split; [|auto]. rewrite EH, nth_error_app1; [exact N|]. apply nth_error_Some. congruence.
    + apply (minv_answer c c1 i seq body o rr I M ONE LOK G D); [rewrite EL; apply in_app_iff; right; left; reflexivity|exact EC].
    + apply (minv_keep c); [exact M|rewrite E; auto|exact G|]. intros p r N. exists r. rewrite EC. auto.
  - cbn [cstep] in S. injection S as <-. apply (minv_keep c); [exact M| |exact G|].
    + intros [m p] X. cbn in X. apply (in_removes _ text_ok) in X as [X _]. exact X.
    + intros p r N. exists r. auto.
  - apply (minv_answer c c1 i seq body o r I M ONE LOK G D IN EC).
Qed.
Lemma one_id_prefix a b : one_id (a ++ b) -> one_id a.
Proof. intros H o o' x x' I I'. apply H; apply in_app_iff; auto. Qed.
Lemma minv_run pr l es c : crun pr (cstart l) es = Ok c -> Forall got_ok es -> one_id (ct_log c) -> minv c.
Proof.
  revert c. induction es as [|e es IH] using rev_ind; intros c H G ONE; [cbn in H; injection H as <-; intros m p []|]. pose proof (log_ok_run _ _ _ _ H G) as LOK.
  rewrite crun_app in H. apply bind_ok in H as (c0 & E & H). cbn [crun] in H. apply bind_ok in H as (c1 & E1 & H). injection H as <-. apply Forall_app in G as [G1 G2].
  pose proof (sinv_run pr es _ _ (sinv_start l) E) as I. destruct (log_grows _ _ _ (step_kinds pr c0 e c1 I E1)) as (lg & EL).
  apply (minv_step pr c0 e c1 I E1 ONE LOK). apply IH; [exact E|exact G1|]. rewrite EL in ONE. apply one_id_prefix in ONE. exact ONE.
Qed.
Lemma msg_nodup_run pr l es c : crun pr (cstart l) es = Ok c -> NoDup (map fst (ca_msg (ct_ca c))).
Proof.
  revert c. induction es as [|e es IH] using rev_ind; intros c H; [cbn in H; injection H as <-; constructor|].
  rewrite crun_app in H. apply bind_ok in H as (c0 & E & H). cbn [crun] in H. apply bind_ok in H as (c1 & E1 & H). injection H as <-. specialize (IH c0 E).
  pose proof (sinv_run pr es _ _ (sinv_start l) E) as I. destruct (msg_step pr c0 e c1 I E1) as [->|[(d & now & ->)|(i & seq & body & o & r & -> & D & IN & ->)]]; [exact IH| |].
  - cbn [cstep] in E1. injection E1 as <-. cbn [put_ca ct_ca cleanMsgIdCacheMap ca_msg]. apply nodup_removes. exact IH.
  - unfold answered. destruct (load _ _ _); [|exact IH]. cbn [ca_msg]. apply nodup_store_at; [apply text_ok|exact IH].
Qed.
(** With one message id per packet a round removes exactly the entries of expired results from the
    cache by message id and changes nothing else.  (Missing: gateways that answer one packet under
    two message ids; refuted below.) *)
Theorem C72_msg_partial : forall pr sessions es c d now c1, crun pr (cstart sessions) es = Ok c -> Forall got_ok es -> one_id (ct_log c) -> cstep pr c (CSweepM d now) = Ok c1 ->
  (forall m p, In (m, p) (ca_msg (ct_ca c1)) <-> In (m, p) (ca_msg (ct_ca c)) /\ ~ is_expired (ca_heap (ct_ca c)) d now p) /\
  ca_heap (ct_ca c1) = ca_heap (ct_ca c) /\ ca_seq (ct_ca c1) = ca_seq (ct_ca c) /\ ca_query (ct_ca c1) = ca_query (ct_ca c) /\
  ct_sess c1 = ct_sess c /\ ct_send c1 = ct_send c /\ ct_log c1 = ct_log c.
Proof.
  intros pr sessions es c d now c1 H G ONE S. pose proof (minv_run _ _ _ _ H G ONE) as M. pose proof (msg_nodup_run _ _ _ _ H) as ND.
  cbn [cstep] in S. injection S as <-. split; [|repeat split; reflexivity]. intros m p. cbn [put_ca ct_ca cleanMsgIdCacheMap ca_msg]. rewrite (in_removes _ text_ok). split; intros [X Y]; (split; [exact X|]).
  - intros (r & N & L). apply Y. apply in_flat_map. exists (m, p). split; [exact X|]. cbn [snd]. unfold old. rewrite N. replace (rt_send r + d <? now) with true by lia. left.
    destruct (M _ _ X) as (r' & _ & _ & N' & E & _). congruence.
  - intros Z. apply in_flat_map in Z as ([m' p'] & X' & O). cbn [snd] in O. unfold old in O. destruct (nth_error (ca_heap (ct_ca c)) p') as [r|] eqn:N; [|destruct O].
    destruct (rt_send r + d <? now) eqn:L; [|destruct O]. destruct O as [O|[]]. destruct (M _ _ X') as (r' & _ & _ & N' & E & _). assert (EM : m' = m) by congruence. rewrite EM in X'.
    rewrite (nodup_fst _ _ _ _ ND X X') in Y. apply Y. exists r. split; [exact N|lia].
Qed.
(** Otherwise an entry whose message id is not any more that of a result is never removed, whatever
    the cache time and however often the sweepers run. *)
Theorem C72_leak : forall pr sessions es c m p sweeps c1, crun pr (cstart sessions) es = Ok c -> In (m, p) (ca_msg (ct_ca c)) ->
  (forall r, In r (ca_heap (ct_ca c)) -> rt_msgid r <> m) -> Forall is_sweep sweeps -> crun pr c sweeps = Ok c1 ->
  In (m, p) (ca_msg (ct_ca c1)) /\ ca_heap (ct_ca c1) = ca_heap (ct_ca c).
Proof.
  intros pr sessions es c m p sweeps c1 _. revert c. induction sweeps as [|e sweeps IH]; intros c X NO F H; [cbn in H; injection H as <-; auto|].
  cbn [crun] in H. apply bind_ok in H as (c2 & E & H). pose proof (Forall_inv F) as SW. apply Forall_inv_tail in F.
  assert (K : In (m, p) (ca_msg (ct_ca c2)) /\ ca_heap (ct_ca c2) = ca_heap (ct_ca c)).
  { destruct e; try destruct SW; cbn [cstep] in E; injection E as <-; cbn [put_ca ct_ca].
    - unfold cleanQueryCacheMap. destruct (sweep_query _ _ _ _ _ _ _ _) as [[ex ba] out]. auto.
    - auto.
    - cbn [cleanMsgIdCacheMap ca_msg ca_heap]. split; [|reflexivity]. apply (in_removes _ text_ok). split; [exact X|]. intros Z. apply in_flat_map in Z as ([m' p'] & _ & O). cbn [snd] in O.
      destruct (old _ _ _ _); [|destruct O]. destruct (nth_error (ca_heap (ct_ca c)) p') as [r|] eqn:N; [|destruct O]. destruct O as [O|[]]. exact (NO r (nth_error_In _ _ N) O). }
  destruct K as [K1 K2]. destruct (IH c2 K1) as [A B]; [rewrite K2; exact NO|exact F|exact H|]. rewrite B, K2 in *. auto.
Qed.
(** The demonstration send, answered under (3001, 5, 9) and then under (4001, 5, 9). *)
Definition two_answers : list cevent := send_demo ++
  [CGot 0 2147483651 3001 ([0;0;0;5] ++ [0;0;0;9] ++ [0] ++ repeat 0 8) (GOrc false 9 []); CGot 0 2147483651 4001 ([0;0;0;5] ++ [0;0;0;9] ++ [0] ++ repeat 0 8) (GOrc false 9 [])].
Theorem C72_refuted_msg : exists c m p, crun pr_demo (cstart [sess_demo P_SGIP]) two_answers = Ok c /\ In (m, p) (ca_msg (ct_ca c)) /\
  forall d now sweeps c1, 6 + d < now -> Forall is_sweep sweeps -> crun pr_demo c (sweeps ++ [CSweepM d now]) = Ok c1 -> In (m, p) (ca_msg (ct_ca c1)) /\ is_expired (ca_heap (ct_ca c1)) d now p.
Proof.
  destruct (crun pr_demo (cstart [sess_demo P_SGIP]) two_answers) as [c| |] eqn:R; [|vm_compute in R; discriminate R|vm_compute in R; discriminate R].
  exists c, (Sequence2String (3001, 5, 9)), 0%nat. split; [reflexivity|].
  assert (X : In (Sequence2String (3001, 5, 9), 0%nat) (ca_msg (ct_ca c)) /\ map rt_msgid (ca_heap (ct_ca c)) = [Sequence2String (4001, 5, 9)] /\ map rt_send (ca_heap (ct_ca c)) = [6]).
  { revert R. vm_compute. intros R. injection R as <-. cbn [ct_ca ca_msg ca_heap map rt_msgid rt_send]. split; [right; left; reflexivity|split; reflexivity]. }
  destruct X as (X & HM & HS). split; [exact X|]. intros d now sweeps c1 L F H.
  destruct (C72_leak pr_demo [sess_demo P_SGIP] two_answers c _ _ (sweeps ++ [CSweepM d now]) c1 R X) as [A B]; [| |exact H|].
  - intros r IN. apply (in_map rt_msgid) in IN. rewrite HM in IN. destruct IN as [IN|[]]. rewrite <- IN. vm_compute. discriminate.
  - apply Forall_app. split; [exact F|repeat constructor].
  - split; [exact A|]. rewrite B. destruct (ca_heap (ct_ca c)) as [|r h]; [discriminate HS|]. exists r. split; [reflexivity|]. injection HS as E _. lia.
Qed.
(** Two sends at 6 and 1006, one answer each: a round at 1000 with cache time 100 frees the first only. *)
Example C72_case :
  match crun pr_demo (cstart [sess_demo P_SGIP]) (send_demo ++ [CGot 0 2147483651 3001 ([0;0;0;5] ++ [0;0;0;9] ++ [0] ++ repeat 0 8) (GOrc false 9 [])] ++
    [CBegin 78 [72] [] [[49]]; CPick 1 (Some 0%nat) (DOrc 258 (fun i => 300 + i) (fun i => (3001, 5, 20 + i)) [] [] 7) 5; CWrite 1 true 5; CRecord 1 1006; CDone 1;
     CGot 0 2147483651 3001 ([0;0;0;5] ++ [0;0;0;20] ++ [0] ++ repeat 0 8) (GOrc false 9 [])]) with
  | Ok c => map snd (ca_seq (ct_ca c)) = [1; 0]%nat /\ map snd (ca_msg (ct_ca c)) = [1; 0]%nat /\
    match crun pr_demo c [CSweepS 100 1000; CSweepM 100 1000] with Ok c1 => map snd (ca_seq (ct_ca c1)) = [1]%nat /\ map snd (ca_msg (ct_ca c1)) = [1]%nat | _ => False end
  | _ => False
  end.
Proof. vm_compute. repeat split. Qed.
Print Assumptions C72_seq.
Print Assumptions C72_empty.
Print Assumptions C72_msg_partial.
Print Assumptions C72_leak.
Print Assumptions C72_refuted_msg.
