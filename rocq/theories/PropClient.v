(** * PropClient: properties C57-C60 (the client's results, queries and the sweeper). *)
From Coq Require Import Sorting.Permutation.
From Verif Require Import Base UtilsModel SpecText OptionsModel CmppModel SgipModel SmgpModel FrameModel SeqModel SeqProofs PropCmpp
  SpecClient ClientModel ClientProofs.

(** ** C57: submit answers reach the query result *)
(** Shown for SGIP: in every run of the client (any interleaving of senders, receivers, closes and
    sweeps), whatever a query returns shows the last SGIP answer that came after the packet's result
    was recorded: code and message id; or nothing if there was none.  Assumed: packets got different
    keys, and the result did not expire in the cache by sequence id.  (Missing for the full C57:
    CMPP and SMGP, and answers that come before the result is recorded; both refuted below.) *)
Theorem C57_sgip_partial : forall pr sessions es c q rs r, crun pr (cstart sessions) es = Ok c -> Forall got_ok es ->
  NoDup (map snd (recs (ct_log c))) -> Query (ct_ca c) q = Ok (Some rs) -> In r rs -> fresh es r ->
  (exists t, In (t, rt_phone r, rt_seq r) (recs (ct_log c))) /\ shows r (last_answer (ct_log c) (rt_seq r)).
Proof.
  intros pr sessions es c q rs r H G ND Q IN F. pose proof (sinv_run pr es _ _ (sinv_start sessions) H) as I.
  assert (X : exists p, nth_error (ca_heap (ct_ca c)) p = Some r).
  { unfold Query in Q. destruct (load Z.eqb q (ca_query (ct_ca c))) as [[|p l]|]; [discriminate Q| |discriminate Q]. injection Q as <-. change (In r (deref (ca_heap (ct_ca c)) (p :: l))) in IN. revert IN. generalize (p :: l). clear.
    induction l as [|p l IH]; cbn [deref]; [intros []|]. destruct (nth_error (ca_heap (ct_ca c)) p) eqn:E; [|exact IH]. intros [<-|X]; eauto. }
  destruct X as (p & N). split.
  - destruct (heap_key c p r I N) as (t & R). exists t. apply nth_error_In in R. exact R.
  - apply (ainv_run pr sessions es c H G ND p r N F).
Qed.
(** What must not change: no step of the client changes the number, the sequence id, the send time or
    the (empty) report of a recorded result.  The code, the message id and the answer time change only
    when an SGIP submit answer to that very packet comes in, and then they show this answer. *)
Theorem C57_nothing_else : forall pr sessions es c e c1 p r, crun pr (cstart sessions) es = Ok c -> got_ok e -> cstep pr c e = Ok c1 ->
  nth_error (ca_heap (ct_ca c)) p = Some r -> exists r', nth_error (ca_heap (ct_ca c1)) p = Some r'
  /\ rt_phone r' = rt_phone r /\ rt_seq r' = rt_seq r /\ rt_send r' = rt_send r /\ rt_report r' = rt_report r /\ rt_rept r' = rt_rept r
  /\ ((rt_result r' = rt_result r /\ rt_msgid r' = rt_msgid r /\ rt_resp r' = rt_resp r)
      \/ exists i cmd seq body o a l, e = CGot i cmd seq body o /\ ct_log c1 = ct_log c ++ OGotP i P_SGIP cmd seq body :: l
         /\ sg_answer (OGotP i P_SGIP cmd seq body) = Some a /\ sa_key a = rt_seq r /\ shows r' (Some a) /\ rt_resp r' = g_now o).
Proof.
  intros pr sessions es c e c1 p r H G S N. pose proof (sinv_run pr es _ _ (sinv_start sessions) H) as I. pose proof (sinv_step pr _ _ _ I S) as I1.
  assert (REP : forall r', nth_error (ca_heap (ct_ca c1)) p = Some r' -> rt_report r' = rt_report r /\ rt_rept r' = rt_rept r).
  { intros r' N'. pose proof (si_rep _ I) as R0. pose proof (si_rep _ I1) as R1. rewrite Forall_forall in R0, R1. apply nth_error_In in N, N'. apply R0 in N. apply R1 in N'. destruct N, N'. split; congruence. }
  destruct (step_kinds pr c e c1 I S) as [l EL Q ES EH|t pp phone b now -> EL EH ES|i seq body o rr out -> D EL EC|d now -> EL EC].
  - destruct (map_fwd core _ _ p r (eq_sym EH) N) as (r' & N' & E). destruct (REP r' N') as [RA RB]. exists r'. split; [exact N'|]. injection E as E0 E1 E2 E3 E4 E5. repeat split; auto.
  - exists r. rewrite EH, nth_error_app1 by (apply nth_error_Some; congruence). auto 10.
  - destruct (srsp_fields _ _ _ _ D) as (L9 & SQ & ST). destruct G as [GS GB].
    assert (R1 : 0 <= unbe (firstn 4 body) < 2 ^ 32).
    { assert (X : zlen (firstn 4 body) = 4) by (unfold zlen, bytes in *; rewrite firstn_length; lia). pose proof (unbe_range (firstn 4 body) (bytes_ok_firstn _ _ GB)) as Y. rewrite X in Y. exact Y. }
    assert (R2 : 0 <= unbe (firstn 4 (skipn 4 body)) < 2 ^ 32).
    { assert (X : zlen (firstn 4 (skipn 4 body)) = 4) by (unfold zlen, bytes in *; rewrite firstn_length, skipn_length; lia). pose proof (unbe_range (firstn 4 (skipn 4 body)) (bytes_ok_firstn _ _ (bytes_ok_skipn _ _ GB))) as Y. rewrite X in Y. exact Y. }
    rewrite SQ in EC. set (x := unbe (firstn 4 body)) in *. set (y := unbe (firstn 4 (skipn 4 body))) in *.
    assert (KEY : Sequence2Uint64 (seq, x, y) = x * 2 ^ 32 + y) by (cbn [Sequence2Uint64]; rewrite Z.shiftl_mul_pow2 by lia; apply lor_disjoint; lia).
    rewrite KEY in EC. unfold answered in EC. destruct (load ckey_eqb (U64 (x * 2 ^ 32 + y)) (ca_seq (ct_ca c))) as [p0|] eqn:LD; [|exists r; rewrite EC; auto 10].
    destruct (p =? p0)%nat eqn:PE.
    + apply Nat.eqb_eq in PE. subst p0. exists (set_answer (sr_status rr) (Sequence2String (seq, x, y)) (g_now o) r). rewrite EC. cbn [ca_heap].
      rewrite upd_heap_nth, Nat.eqb_refl, N. split; [reflexivity|]. do 5 (split; [reflexivity|]). right.
      exists i, 2147483651, seq, body, o, (SGAnswer seq x y (nth 8 body 0)), (map (OReply i) out). split; [reflexivity|]. split; [exact EL|].
      split; [cbn [sg_answer]; replace (9 <=? zlen body) with true by (symmetry; apply Z.leb_le; lia); reflexivity|].
      apply load_in in LD as (k' & KE & IN). apply ckey_ok in KE. subst k'. pose proof (si_seq _ I) as SI. rewrite Forall_forall in SI. destruct (SI _ IN) as (r1 & KR & NR). cbn [fst snd] in KR, NR.
      assert (r1 = r) by congruence. subst r1. assert (KR' : x * 2 ^ 32 + y = rt_seq r) by congruence. unfold sa_key. cbn [sa_b sa_c]. split; [exact KR'|]. split; [|reflexivity].
      cbn [shows rt_result rt_msgid set_answer sa_code]. split; [exact ST|].
      unfold sg_text. cbn [sa_a sa_b sa_c Sequence2String]. exists (dec10 seq), (dec10 x), (hex8 y). clearbody x y.
      destruct (dec10_value seq GS) as [V1 W1]. destruct (dec10_value x R1) as [V2 W2]. unfold hex8. destruct (UtilsProofs.Uint32HexString_value y R2) as [V3 W3].
      split; [reflexivity|]. split; [reflexivity|]. split; [reflexivity|]. split; [exact W3|]. auto.
    + exists r. rewrite EC. cbn [ca_heap]. rewrite upd_heap_nth, PE. auto 10.
  - exists r. rewrite EC. cbn [cleanRequestIdCacheMap ca_heap]. auto 10.
Qed.
(** Refuted for CMPP and SMGP, for every run: no CMPP or SMGP packet changes any result.  As long as
    no SGIP answer comes, every result is as it was when it was recorded, whatever answers came. *)
Definition blank (r : result) : Prop := rt_result r = 0 /\ rt_msgid r = [] /\ rt_resp r = 0.
Lemma blank_run pr l es c : crun pr (cstart l) es = Ok c -> (forall o, In o (ct_log c) -> sg_answer o = None) -> Forall blank (ca_heap (ct_ca c)).
Proof.
  revert c. induction es as [|e es IH] using rev_ind; intros c H A.
  - cbn in H. injection H as <-. constructor.
  - rewrite crun_app in H. apply bind_ok in H as (c0 & E & H). cbn [crun] in H. apply bind_ok in H as (c1 & E1 & H). injection H as <-.
    pose proof (sinv_run pr es _ _ (sinv_start l) E) as I. specialize (IH c0 E).
    destruct (step_kinds pr c0 e c1 I E1) as [lg EL Q ES EH|t pp phone b now -> EL EH ES|i seq body o rr out -> D EL EC|d now -> EL EC].
    + assert (B : Forall blank (ca_heap (ct_ca c0))) by (apply IH; intros o O; apply A; rewrite EL; apply in_app_iff; auto).
      rewrite Forall_forall in *. intros r R. apply In_nth_error in R as (p & N). destruct (map_fwd core _ _ p r EH N) as (r0 & N0 & E0). apply nth_error_In in N0. apply B in N0. injection E0 as _ _ E2 E3 E4 _. unfold blank in *. congruence.
    + rewrite EH. apply Forall_app. split; [apply IH; intros o O; apply A; rewrite EL; apply in_app_iff; auto|]. constructor; [unfold blank; auto|constructor].
    + exfalso. specialize (A (OGotP i P_SGIP 2147483651 seq body)). rewrite EL in A. specialize (A ltac:(apply in_app_iff; right; left; reflexivity)).
      apply srsp_fields in D as (L & _). cbn [sg_answer] in A. replace (9 <=? zlen body) with true in A by (symmetry; apply Z.leb_le; exact L). discriminate A.
    + rewrite EC. cbn [cleanRequestIdCacheMap ca_heap]. apply IH. intros o O. apply A. rewrite EL. exact O.
Qed.
Theorem C57_refuted_cmpp_smgp : forall pr sessions es c q rs r, crun pr (cstart sessions) es = Ok c ->
  (forall o, In o (ct_log c) -> sg_answer o = None) -> Query (ct_ca c) q = Ok (Some rs) -> In r rs -> shows r None.
Proof.
  intros pr sessions es c q rs r H A Q IN. pose proof (blank_run _ _ _ _ H A) as B. rewrite Forall_forall in B. apply B. clear B.
  unfold Query in Q. destruct (load Z.eqb q (ca_query (ct_ca c))) as [[|p l]|]; [discriminate Q| |discriminate Q]. injection Q as <-. change (In r (deref (ca_heap (ct_ca c)) (p :: l))) in IN. revert IN. generalize (p :: l). clear.
  induction l as [|p l IH]; cbn [deref]; [intros []|]. destruct (nth_error (ca_heap (ct_ca c)) p) eqn:E; [|exact IH]. intros [<-|X]; [apply nth_error_In in E; exact E|auto].
Qed.
(** Demonstration runs: one session, one number, one short message, query id 77; the gateway answers. *)
Definition pr_demo : cparams := CParams (fun x => Some x) (fun x => Some x).
Definition d_demo : dorc := DOrc 258 (fun i => 300 + i) (fun i => (3001, 5, 9 + i)) [] [] 7.
Definition send_demo : list cevent := [CBegin 77 [72;105] [] [[49;51;48]]; CPick 0 (Some 0%nat) d_demo 5; CWrite 0 true 5; CRecord 0 6; CDone 0].
Definition sess_demo (p : proto) : csess := CSess p CLogin true (Some ac_demo) 0 0.
Definition show_demo (p : proto) (es : list cevent) : option (list (bytes * Z * Z * bytes * bytes)) :=
  match crun pr_demo (cstart [sess_demo p]) es with
  | Ok c => match Query (ct_ca c) 77 with Ok (Some l) => Some (map (fun r => (rt_phone r, rt_seq r, rt_result r, rt_msgid r, rt_report r)) l) | _ => None end
  | _ => None
  end.
(** SGIP: the answer with code 3 to sequence (3001, 5, 9) is shown. *)
Example C57_case : show_demo P_SGIP (send_demo ++ [CGot 0 2147483651 3001 ([0;0;0;5] ++ [0;0;0;9] ++ [3] ++ repeat 0 8) (GOrc false 9 [])])
  = Some [([49;51;48], 5 * 2 ^ 32 + 9, 3, [48;48;48;48;48;48;51;48;48;49] ++ [48;48;48;48;48;48;48;48;48;53] ++ [48;48;48;48;48;48;48;57], [])].
Proof. vm_compute. reflexivity. Qed.
(** CMPP: the gateway accepts packet 258 with message id 1, SMGP likewise; nothing is shown. *)
Theorem C57_refuted :
  show_demo P_CMPP (send_demo ++ [CGot 0 2147483652 258 ([0;0;0;0;0;0;0;1] ++ [0;0;0;8]) (GOrc false 9 [])]) = Some [([49;51;48], 258, 0, [], [])]
  /\ show_demo P_SMGP (send_demo ++ [CGot 0 2147483650 258 ([1;2;3;4;5;6;7;8;9;10] ++ [0;0;0;8]) (GOrc false 9 [])]) = Some [([49;51;48], 258, 0, [], [])].
Proof. split; vm_compute; reflexivity. Qed.
(** SGIP: an answer that arrives after the packet was written but before its result is recorded is lost. *)
Theorem C57_refuted_race :
  show_demo P_SGIP ([CBegin 77 [72;105] [] [[49;51;48]]; CPick 0 (Some 0%nat) d_demo 5; CWrite 0 true 5] ++
    [CGot 0 2147483651 3001 ([0;0;0;5] ++ [0;0;0;9] ++ [3] ++ repeat 0 8) (GOrc false 6 [])] ++ [CRecord 0 7; CDone 0])
  = Some [([49;51;48], 5 * 2 ^ 32 + 9, 0, [], [])].
Proof. vm_compute. reflexivity. Qed.
Print Assumptions C57_sgip_partial.
Print Assumptions C57_nothing_else.
Print Assumptions C57_refuted_cmpp_smgp.
Print Assumptions C57_refuted.
Print Assumptions C57_refuted_race.

(** ** C58: delivery reports reach the query result *)
(** Refuted for every run: no report ever shows, whatever the client received. *)
Theorem C58_refuted_always : forall pr sessions es c q rs r, crun pr (cstart sessions) es = Ok c ->
  Query (ct_ca c) q = Ok (Some rs) -> In r rs -> rt_report r = [] /\ rt_rept r = 0.
Proof.
  intros pr sessions es c q rs r H Q IN. pose proof (si_rep _ (sinv_run pr es _ _ (sinv_start sessions) H)) as B. rewrite Forall_forall in B. apply B. clear B.
  unfold Query in Q. destruct (load Z.eqb q (ca_query (ct_ca c))) as [[|p l]|]; [discriminate Q| |discriminate Q]. injection Q as <-. change (In r (deref (ca_heap (ct_ca c)) (p :: l))) in IN. revert IN. generalize (p :: l). clear.
  induction l as [|p l IH]; cbn [deref]; [intros []|]. destruct (nth_error (ca_heap (ct_ca c)) p) eqn:E; [|exact IH]. intros [<-|X]; [apply nth_error_In in E; exact E|auto].
Qed.
(** What holds of C58 (a report never changes any other packet's result): a deliver packet of any
    protocol changes no result at all. *)
Theorem C58_nothing_else_partial : forall pr sessions es c i ss cmd seq body o c1, crun pr (cstart sessions) es = Ok c ->
  nth_error (ct_sess c) i = Some ss -> (cs_p ss = P_SGIP -> cmd <> 2147483651) -> cstep pr c (CGot i cmd seq body o) = Ok c1 -> ct_ca c1 = ct_ca c.
Proof.
  intros pr sessions es c i ss cmd seq body o c1 H N NE S. pose proof (sinv_run pr es _ _ (sinv_start sessions) H) as I. cbn [cstep] in S. rewrite N in S.
  apply bind_ok in S as ([[s1 ca] out] & G & S). injection S as <-. cbn [say put_ca ct_ca]. apply handler_eff in G as [GP G]. apply (heff_got c) in G; [|exact I].
  destruct (cs_p ss); cbn [got_eff] in G; auto. replace (cmd =? 2147483651) with false in G by (symmetry; apply Z.eqb_neq; apply NE; reflexivity). exact G.
Qed.
(** CMPP: the packet was accepted with message id 1; a report DELIVRD for message id 1 comes.  SMGP likewise. *)
Theorem C58_refuted :
  show_demo P_CMPP (send_demo ++ [CGot 0 2147483652 258 ([0;0;0;0;0;0;0;1] ++ [0;0;0;0]) (GOrc false 9 []);
     CGot 0 5 11 ([0;0;0;0;0;0;0;2] ++ repeat 0 34 ++ repeat 0 33 ++ [1;71] ++ ([0;0;0;0;0;0;0;1] ++ [68;69;76;73;86;82;68] ++ repeat 48 20 ++ repeat 0 32 ++ [0;0;0;0]) ++ repeat 0 20) (GOrc false 10 [])])
    = Some [([49;51;48], 258, 0, [], [])]
  /\ show_demo P_SMGP (send_demo ++ [CGot 0 2147483650 258 ([1;2;3;4;5;6;7;8;9;10] ++ [0;0;0;0]) (GOrc false 9 []);
     CGot 0 3 12 (repeat 9 10 ++ [1;15] ++ repeat 0 56 ++ [122] ++ ([105;100;58] ++ [1;2;3;4;5;6;7;8;9;10] ++ repeat 48 109) ++ repeat 0 8) (GOrc false 10 (repeat 0 10))])
    = Some [([49;51;48], 258, 0, [], [])].
Proof. split; vm_compute; reflexivity. Qed.
(** The reports above are well formed: they decode, with the message id of the answer. *)
Example C58_case :
  (exists d r, Delivery_Decode 48 11 ([0;0;0;0;0;0;0;2] ++ repeat 0 34 ++ repeat 0 33 ++ [1;71] ++ ([0;0;0;0;0;0;0;1] ++ [68;69;76;73;86;82;68] ++ repeat 48 20 ++ repeat 0 32 ++ [0;0;0;0]) ++ repeat 0 20) = Ok d
     /\ dl_report d = Some r /\ rp_msgId r = 1 /\ rp_stat r = [68;69;76;73;86;82;68])
  /\ (exists d r, MDeliver_Decode (fun x => Some x) 48 12 (repeat 9 10 ++ [1;15] ++ repeat 0 56 ++ [122] ++ ([105;100;58] ++ [1;2;3;4;5;6;7;8;9;10] ++ repeat 48 109) ++ repeat 0 8) = Ok d
     /\ md_report d = Some r /\ mp_id r = [1;2;3;4;5;6;7;8;9;10]).
Proof. split; eexists; eexists; split; [vm_compute; reflexivity|repeat split|vm_compute; reflexivity|repeat split]. Qed.
Print Assumptions C58_refuted_always.
Print Assumptions C58_nothing_else_partial.
Print Assumptions C58_refuted.

(** ** C59: sending and querying *)
(** Every finished send whose query id is its own and which was not swept: if it recorded a packet,
    the query returns exactly its packets, in order, each with its number, its wire key and the query
    id.  (Missing for the full C59: sends without a recorded packet; refuted below.) *)
Lemma deref_views c l v : sinv c -> look (ct_log c) l = map Some v -> map view_of (deref (ca_heap (ct_ca c)) l) = v.
Proof.
  intros I. revert v. induction l as [|p l IH]; intros v H; destruct v as [|x v]; try discriminate H; [reflexivity|]. cbn [look map] in H. injection H as H1 H2.
  cbn [deref]. rewrite <- (si_heap _ I) in H1. destruct (nth_error (ca_heap (ct_ca c)) p) as [r|] eqn:N.
  - apply (map_nth_error view_of) in N. cbn [map]. rewrite (IH v H2). congruence.
  - apply nth_error_None in N. rewrite <- (map_length view_of) in N. apply nth_error_None in N. congruence.
Qed.
Lemma deref_in h l r : In r (deref h l) -> exists p, In p l /\ nth_error h p = Some r.
Proof.
  induction l as [|p l IH]; cbn [deref]; [intros []|]. destruct (nth_error h p) eqn:E.
  - intros [<-|X]; [exists p; split; [left; reflexivity|exact E]|]. destruct (IH X) as (p' & A & B). exists p'. split; [right; exact A|exact B].
  - intros X. destruct (IH X) as (p' & A & B). exists p'. split; [right; exact A|exact B].
Qed.
Lemma harvest_hv t log : harvest t log = fst (hv t log) ++ snd (hv t log).
Proof. unfold harvest, hv. destruct (fold_left (hv_step t) log ([], [])). reflexivity. Qed.
Theorem C59_results_partial : forall pr sessions es c t s, crun pr (cstart sessions) es = Ok c ->
  nth_error (ct_send c) t = Some s -> sn_ph s = SDone -> sole c t s -> unswept es (ca_heap (ct_ca c)) (sn_res s) -> harvest t (ct_log c) <> [] ->
  exists rs, Query (ct_ca c) (sn_q s) = Ok (Some rs) /\ map (fun r => (rt_phone r, rt_seq r)) rs = harvest t (ct_log c) /\ Forall (fun r => rt_qid r = sn_q s) rs.
Proof.
  intros pr sessions es c t s H N D SO U HN. pose proof (sinv_run pr es _ _ (sinv_start sessions) H) as I.
  pose proof (qinv_run pr sessions es c H t s N D SO U) as L. destruct (si_snd _ I t s N) as [O V]. rewrite D in V. rewrite <- harvest_hv in V.
  exists (deref (ca_heap (ct_ca c)) (sn_res s)). split; [|split].
  - unfold Query. rewrite L. destruct (sn_res s); [|reflexivity]. cbn in V. destruct (harvest t (ct_log c)); [contradiction|discriminate V].
  - apply deref_views; assumption.
  - apply Forall_forall. intros r R. apply deref_in in R as (p & P & NP). apply (si_qid _ I t s p r); assumption.
Qed.
(** Refuted for every finished send without a recorded packet (all its numbers without a session or
    over the rate limit, all writes failed, or the message does not encode): querying it crashes. *)
Theorem C59_refuted_empty : forall pr sessions es c t s, crun pr (cstart sessions) es = Ok c ->
  nth_error (ct_send c) t = Some s -> sn_ph s = SDone -> sole c t s -> (forall h d now, ~ In (CSweepQ h d now) es) -> harvest t (ct_log c) = [] ->
  Query (ct_ca c) (sn_q s) = Panic.
Proof.
  intros pr sessions es c t s H N D SO U HN. pose proof (sinv_run pr es _ _ (sinv_start sessions) H) as I.
  destruct (si_snd _ I t s N) as [O V]. rewrite D in V. rewrite <- harvest_hv, HN in V. assert (R : sn_res s = []) by (destruct (sn_res s); [reflexivity|discriminate V]).
  assert (L : load Z.eqb (sn_q s) (ca_query (ct_ca c)) = Some []).
  { rewrite <- R. apply (qinv_run pr sessions es c H t s N D SO). intros h d now X. exfalso. exact (U h d now X). }
  unfold Query. rewrite L. reflexivity.
Qed.
(** A query id that no finished send has gives no answer. *)
Theorem C59_unknown : forall pr sessions es c q, crun pr (cstart sessions) es = Ok c ->
  (forall t s, nth_error (ct_send c) t = Some s -> sn_ph s = SDone -> sn_q s <> q) -> Query (ct_ca c) q = Ok None.
Proof.
  intros pr sessions es c q H U. pose proof (sinv_run pr es _ _ (sinv_start sessions) H) as I. unfold Query. destruct (load Z.eqb q (ca_query (ct_ca c))) as [l|] eqn:L; [|reflexivity].
  apply load_in in L as (k & E & X). apply Z.eqb_eq in E. subst k. destruct (si_qry _ I q l X) as (t & s & N & D & Q & _). exfalso. exact (U t s N D Q).
Qed.
(** Sending returns 0 for no numbers; otherwise the drawn id, which is not 0 at any time after the
    generator's epoch (and before its end). *)
Lemma spin_in b clk now rest : spin b clk = Some (now, rest) -> In now clk.
Proof. revert now rest. induction clk as [|x clk IH]; intros now rest H; cbn [spin] in H; [discriminate H|]. destruct (x <=? b); [right; exact (IH _ _ H)|]. injection H as <- <-. left. reflexivity. Qed.
Theorem C59_id_nonzero : forall s clk s' v rest, 0 <= sf_dc s < 8 -> 0 <= sf_worker s < 128 -> 0 <= sf_seq s < 4096 ->
  (forall x, In x clk -> epoch2020 < x <= epoch2020 + max41) -> sf_next s clk = Some (s', v, rest) -> v <> 0.
Proof. change max41 with sf_timestampMax; change epoch2020 with sf_epoch.
  intros s clk s' v rest Hd Hw Hq Hr H.
  assert (P : forall now q, In now clk -> 0 <= q < 4096 -> sf_pack (now - sf_epoch) (sf_dc s) (sf_worker s) q <> 0).
  { intros now q IN Q E. apply Hr in IN. unfold sf_timestampMax in IN. pose proof (sf_parse_pack (now - sf_epoch) (sf_dc s) (sf_worker s) q ltac:(change (2 ^ 41) with 2199023255552; lia) Hd Hw Q) as X.
    rewrite E in X. unfold sf_parse in X. injection X as X _ _ _. lia. }
  unfold sf_next in H. destruct clk as [|now0 clk]; [discriminate H|].
  assert (T : forall now, In now (now0 :: clk) -> (sf_timestampMax <? now - sf_epoch) = false) by (intros now X; apply Hr in X; lia).
  destruct (sf_ts s =? now0).
  - cbv zeta in H. assert (Q : 0 <= Z.land (sf_seq s + 1) sf_sequenceMask < 4096) by (unfold sf_sequenceMask; rewrite land_4095; apply Z.mod_pos_bound; lia).
    destruct (Z.land (sf_seq s + 1) sf_sequenceMask =? 0).
    + destruct (spin (sf_ts s) clk) as [[now r]|] eqn:S; [|discriminate H]. apply spin_in in S. rewrite T in H by (right; exact S). injection H as <- <- <-. apply P; [right; exact S|exact Q].
    + rewrite T in H by (left; reflexivity). injection H as <- <- <-. apply P; [left; reflexivity|exact Q].
  - cbv zeta in H. rewrite T in H by (left; reflexivity). injection H as <- <- <-. apply P; [left; reflexivity|lia].
Qed.
(** What SendN returns is 0 exactly for the empty list of numbers, if drawn ids are not 0: every id
    returned is 0 for a call without numbers, or the id drawn by a call with numbers. *)
Definition rets_done (c1 : cstate) (l : list cobs) : Prop := forall q, In (ORet q) l -> exists t s, nth_error (ct_send c1) t = Some s /\ sn_ph s = SDone /\ sn_q s = q.
Definition ret_kind (c : cstate) (e : cevent) (c1 : cstate) : Prop :=
  (exists q msg ops phones, e = CBegin q msg ops phones) \/ (length (ct_send c1) = length (ct_send c) /\ exists l, ct_log c1 = ct_log c ++ l /\ rets_done c1 l).
Lemma ret_stay c e : ret_kind c e c.
Proof. right. split; [reflexivity|]. exists []. split; [rewrite app_nil_r; reflexivity|intros q []]. Qed.
Lemma ret_put c e c1 t s s1 o : nth_error (ct_send c) t = Some s -> ct_send c1 = firstn t (ct_send c) ++ [s1] ++ skipn (S t) (ct_send c) -> ct_log c1 = ct_log c ++ [o] -> (forall q, o <> ORet q) -> ret_kind c e c1.
Proof. intros N S L O. right. split; [rewrite S; apply (len_upd _ _ _ _ N)|]. exists [o]. split; [exact L|]. intros q [X|[]]. exfalso. exact (O q X). Qed.
Lemma ret_kinds pr c e c1 : cstep pr c e = Ok c1 -> ret_kind c e c1.
Proof.
  intros H. destruct e as [q msg ops phones|t choice d now|t ok now|t now|t|i cmd seq body o|i|h d now|d now|d now]; cbn [cstep] in H.
  - left. eauto.
  - destruct (nth_error (ct_send c) t) as [s|] eqn:N; [|injection H as <-; apply ret_stay].
    destruct (sn_ph s) eqn:PH; try (injection H as <-; apply ret_stay). destruct (sn_todo s) as [|phone rest] eqn:TD; [injection H as <-; apply ret_stay|].
    destruct choice as [i|]; [|injection H as <-; eapply (ret_put c _ _ t s); [exact N|reflexivity|reflexivity|discriminate]].
    destruct (nth_error (ct_sess c) i) as [ss|] eqn:NS; [|injection H as <-; apply ret_stay]. destruct (HealthCheck ss); [|injection H as <-; apply ret_stay].
    destruct (cs_ac ss) as [ac|]; [|injection H as <-; apply ret_stay]. apply bind_ok in H as (parts & SG & H).
    destruct parts as [|x parts]; injection H as <-; [|eapply (ret_put c _ _ t s); [exact N|reflexivity|reflexivity|discriminate]].
    match goal with |- context [used ?c2 i now] => destruct (used_rest c2 i now) as (U1 & U2 & U3) end.
    eapply (ret_put c _ _ t s (phase s rest (sn_res s) SNext) (OPick t phone)); [exact N|unfold say; cbn [ct_send]; rewrite U2; reflexivity|unfold say; cbn [ct_log]; rewrite U3; reflexivity|discriminate].
  - destruct (nth_error (ct_send c) t) as [s|] eqn:N; [|injection H as <-; apply ret_stay].
    destruct (sn_ph s) as [|i phone parts done|i phone b key parts done|] eqn:PH; try (injection H as <-; apply ret_stay). destruct parts as [|[enc key] r]; [injection H as <-; apply ret_stay|].
    destruct (nth_error (ct_sess c) i) as [ss|] eqn:NS; [|injection H as <-; apply ret_stay]. apply bind_ok in H as (b & B & H).
    destruct ok; [injection H as <-; eapply (ret_put c _ _ t s); [exact N|reflexivity|reflexivity|discriminate]|].
    apply bind_ok in H as (s1 & CL & H). injection H as <-. match goal with |- context [used ?c2 i now] => destruct (used_rest c2 i now) as (U1 & U2 & U3) end.
    eapply (ret_put c _ _ t s (phase s (sn_todo s) (sn_res s) SNext) (OBroke t i)); [exact N|unfold say; cbn [ct_send]; rewrite U2; reflexivity|unfold say; cbn [ct_log]; rewrite U3; reflexivity|discriminate].
  - destruct (nth_error (ct_send c) t) as [s|] eqn:N; [|injection H as <-; apply ret_stay].
    destruct (sn_ph s) as [|i phone parts done|i phone b key r done|] eqn:PH; try (injection H as <-; apply ret_stay). cbv zeta in H.
    destruct r as [|x r]; injection H as <-; [|eapply (ret_put c _ _ t s); [exact N|reflexivity|reflexivity|discriminate]].
    match goal with |- context [used ?c2 i now] => destruct (used_rest c2 i now) as (U1 & U2 & U3) end.
    eapply (ret_put c _ _ t s); [exact N|rewrite U2; reflexivity|rewrite U3; reflexivity|discriminate].
  - destruct (nth_error (ct_send c) t) as [s|] eqn:N; [|injection H as <-; apply ret_stay].
    destruct (sn_ph s) eqn:PH; try (injection H as <-; apply ret_stay). destruct (sn_todo s) as [|phone rest] eqn:TD; [|injection H as <-; apply ret_stay].
    injection H as <-. right. split; [cbn [say put_send put_ca ct_send]; apply (len_upd _ _ _ _ N)|]. exists [ORet (sn_q s)]. split; [reflexivity|]. intros q [X|[]]. injection X as <-.
    exists t, (phase s [] (sn_res s) SDone). cbn [say put_send put_ca ct_send]. rewrite (nth_upd _ _ _ _ N), Nat.eqb_refl. auto.
  - destruct (nth_error (ct_sess c) i) as [ss|] eqn:NS; [|injection H as <-; apply ret_stay]. apply bind_ok in H as ([[s1 ca] out] & G & H). injection H as <-.
    right. split; [reflexivity|]. eexists. split; [reflexivity|]. intros q [X|X]; [discriminate X|]. apply in_map_iff in X as (y & X & _). discriminate X.
  - destruct (nth_error (ct_sess c) i) as [ss|] eqn:NS; [|injection H as <-; apply ret_stay]. apply bind_ok in H as (s1 & CL & H). injection H as <-. exact (ret_stay c (CClose i)).
  - injection H as <-. exact (ret_stay c (CSweepQ h d now)).
  - injection H as <-. exact (ret_stay c (CSweepS d now)).
  - injection H as <-. exact (ret_stay c (CSweepM d now)).
Qed.
Lemma ret_run pr l es c : crun pr (cstart l) es = Ok c ->
  (forall t s, nth_error (ct_send c) t = Some s -> exists msg ops ph phones, In (CBegin (sn_q s) msg ops (ph :: phones)) es)
  /\ (forall q, In (ORet q) (ct_log c) -> (q = 0 /\ exists q0 msg ops, In (CBegin q0 msg ops []) es) \/ (exists t s, nth_error (ct_send c) t = Some s /\ sn_ph s = SDone /\ sn_q s = q)).
Proof.
  revert c. induction es as [|e es IH] using rev_ind; intros c H.
  - cbn in H. injection H as <-. split; [intros [|t] s N; discriminate N|intros q []].
  - rewrite crun_app in H. apply bind_ok in H as (c0 & E & H). cbn [crun] in H. apply bind_ok in H as (c1 & E1 & H). injection H as <-. destruct (IH c0 E) as [A B]. clear IH.
    assert (IN : forall x, In x es -> In x (es ++ [e])) by (intros x X; apply in_app_iff; auto).
    assert (OLD : forall t s, nth_error (ct_send c1) t = Some s -> (t < length (ct_send c0))%nat -> exists msg ops ph phones, In (CBegin (sn_q s) msg ops (ph :: phones)) (es ++ [e])).
    { intros t s N L. destruct (nth_error (ct_send c0) t) as [s0|] eqn:N0; [|apply nth_error_None in N0; lia]. destruct (sends_keep pr c0 e c1 t s0 E1 N0) as (s1 & N1 & Q & _).
      assert (s1 = s) by congruence. subst s1. rewrite Q. destruct (A t s0 N0) as (msg & ops & ph & phones & X). exists msg, ops, ph, phones. auto. }
    assert (KEEP : forall q, In (ORet q) (ct_log c0) -> (q = 0 /\ exists q0 msg ops, In (CBegin q0 msg ops []) (es ++ [e])) \/ (exists t s, nth_error (ct_send c1) t = Some s /\ sn_ph s = SDone /\ sn_q s = q)).
    { intros q X. destruct (B q X) as [(Z0 & q0 & msg & ops & Y)|(t & s & N & D & Q)]; [left; split; [exact Z0|]; exists q0, msg, ops; auto|].
      right. destruct (sends_keep pr c0 e c1 t s E1 N) as (s1 & N1 & Q1 & K). exists t, s1. rewrite (K D) in *. auto. }
    destruct (ret_kinds pr c0 e c1 E1) as [(q & msg & ops & phones & ->)|(LEN & lg & EL & RD)].
    + cbn [cstep] in E1. destruct phones as [|ph phones]; injection E1 as <-.
      * split; [intros t s N; apply (OLD t s N); apply nth_error_Some; cbn in N; congruence|]. intros q1 X. cbn [say ct_log] in X. apply in_app_iff in X as [X|[X|[]]]; [apply KEEP; exact X|]. injection X as <-. left. split; [reflexivity|]. exists q, msg, ops. apply in_app_iff. right. left. reflexivity.
      * cbn [ct_send ct_log] in *. split; [|exact KEEP]. intros t s N. destruct (Nat.lt_ge_cases t (length (ct_send c0))) as [L|L]; [apply (OLD t s N L)|].
        rewrite nth_error_app2 in N by exact L. destruct (t - length (ct_send c0))%nat; [|destruct n; discriminate N]. cbn in N. injection N as <-. cbn [sn_q]. exists msg, ops, ph, phones. apply in_app_iff. right. left. reflexivity.
    + split.
      * intros t s N. apply (OLD t s N). rewrite <- LEN. apply nth_error_Some. congruence.
      * intros q X. rewrite EL in X. apply in_app_iff in X as [X|X]; [apply KEEP; exact X|]. right. apply RD. exact X.
Qed.
Theorem C59_returns : forall pr sessions es c, crun pr (cstart sessions) es = Ok c ->
  (forall q msg ops phones, In (CBegin q msg ops phones) es -> q <> 0) ->
  forall q, In (ORet q) (ct_log c) ->
    (q = 0 /\ exists q0 msg ops, In (CBegin q0 msg ops []) es) \/ (q <> 0 /\ exists msg ops ph phones, In (CBegin q msg ops (ph :: phones)) es).
Proof.
  intros pr sessions es c H NZ q X. destruct (ret_run pr sessions es c H) as [A B]. destruct (B q X) as [Y|(t & s & N & D & Q)]; [left; exact Y|]. right.
  destruct (A t s N) as (msg & ops & ph & phones & Y). rewrite Q in Y. split; [exact (NZ _ _ _ _ Y)|]. eauto.
Qed.
(** A finished send of two numbers, the second without a session; a send whose number has no session. *)
Example C59_case :
  show_demo P_SGIP ([CBegin 77 [72;105] [] [[49;51;48]; [49;52]]; CPick 0 (Some 0%nat) d_demo 5; CWrite 0 true 5; CRecord 0 6; CPick 0 None d_demo 7; CDone 0])
    = Some [([49;51;48], 5 * 2 ^ 32 + 9, 0, [], [])]
  /\ match crun pr_demo (cstart [sess_demo P_CMPP]) [CBegin 77 [72;105] [] [[49;52]]; CPick 0 None d_demo 7; CDone 0] with Ok c => Query (ct_ca c) 77 = Panic /\ Query (ct_ca c) 78 = Ok None | _ => False end.
Proof. split; [vm_compute; reflexivity|]. vm_compute. split; reflexivity. Qed.
Print Assumptions C59_results_partial.
Print Assumptions C59_refuted_empty.
Print Assumptions C59_unknown.
Print Assumptions C59_id_nonzero.
Print Assumptions C59_returns.

(** ** C60: the sweeper of the query cache *)
(** A send is expired: it has no results, or its first result is older than the cache time. *)
Definition expired (heap : list result) (d now : Z) (l : list nat) : Prop :=
  match l with [] => True | p :: _ => exists r, nth_error heap p = Some r /\ rt_send r + d < now end.
Lemma nodup_fun (m : list (Z * list nat)) q l l' : NoDup (map fst m) -> In (q, l) m -> In (q, l') m -> l = l'.
Proof.
  induction m as [|[a b] m IH]; intros ND X Y; [destruct X|]. cbn [map fst] in ND. inversion ND as [|? ? N ND']; subst.
  destruct X as [X|X], Y as [Y|Y]; [congruence| | |auto].
  - apply (in_map fst) in Y. cbn [fst] in Y. injection X as -> ->. contradiction.
  - apply (in_map fst) in X. cbn [fst] in X. injection Y as -> ->. contradiction.
Qed.
Lemma gone_expired heap d now l : gone heap d now l = true <-> expired heap d now l.
Proof.
  unfold gone, expired, old. destruct l as [|p l]; [tauto|]. destruct (nth_error heap p) as [r|].
  - rewrite Z.ltb_lt. split; [eauto|]. intros (r' & E & H). injection E as <-. exact H.
  - split; [discriminate|]. intros (r' & E & _). discriminate E.
Qed.
(** One sweep over a cache whose ids are different (every reachable cache: [C60_reachable]), in any
    order of visiting the entries: nothing but the expired sends goes, all of them go, and with a
    handler every result of an expired send is handed over exactly once, in batches that are not
    empty and hold at least 64 results, except possibly the last.  Without a handler nothing is handed over. *)
Theorem C60_sweep : forall h ca d now entries ca' out, NoDup (map fst (ca_query ca)) -> Permutation entries (ca_query ca) ->
  cleanQueryCacheMap h ca d now entries = (ca', out) ->
  (forall q l, In (q, l) (ca_query ca') <-> In (q, l) (ca_query ca) /\ ~ expired (ca_heap ca) d now l)
  /\ (ca_heap ca' = ca_heap ca /\ ca_seq ca' = ca_seq ca /\ ca_msg ca' = ca_msg ca)
  /\ (h = false -> out = [])
  /\ (h = true -> (exists gone_sends, (forall q l, In (q, l) gone_sends <-> In (q, l) (ca_query ca) /\ expired (ca_heap ca) d now l) /\ NoDup (map fst gone_sends)
                    /\ Permutation (concat out) (flat_map snd gone_sends))
      /\ Forall (fun b => b <> []) out /\ (forall a b c, out = a ++ b :: c -> c <> [] -> 64 <= zlen b)).
Proof.
  intros h ca d now entries ca' out ND P H. unfold cleanQueryCacheMap in H. destruct (sweep_query h (ca_heap ca) d now entries [] [] []) as [[ex batch] o] eqn:SW.
  apply sweep_spec in SW as (A1 & A2 & A3 & A4 & A5). cbn [app concat] in A1, A2. specialize (A3 ltac:(constructor)).
  assert (HOUT : ca' = Caches (ca_heap ca) (ca_seq ca) (ca_msg ca) (fold_left (fun m k => remove Z.eqb k m) ex (ca_query ca)) /\ out = if h && (0 <? zlen batch) then o ++ [batch] else o) by (split; congruence).
  destruct HOUT as [-> EO]. cbn [ca_query ca_heap ca_seq ca_msg]. split; [|split; [auto|split]].
  - assert (RM : forall ks (m : list (Z * list nat)) q l, In (q, l) (fold_left (fun m k => remove Z.eqb k m) ks m) <-> In (q, l) m /\ ~ In q ks).
    { induction ks as [|k ks IH]; intros m q l; cbn [fold_left In]; [tauto|]. rewrite IH. unfold remove. rewrite filter_In. cbn [fst]. rewrite negb_true_iff, Z.eqb_neq. split; [intros ((X & Y) & Z0)|intros (X & Y)]; (split; [|]); tauto. }
    intros q l. rewrite RM. subst ex. split; intros [X Y]; (split; [exact X|]).
    + intros E. apply Y. apply in_map_iff. exists (q, l). split; [reflexivity|]. apply filter_In. split; [apply (Permutation_in _ (Permutation_sym P)); exact X|]. apply gone_expired. exact E.
    + intros E. apply in_map_iff in E as ([q' l'] & E & F). cbn [fst] in E. subst q'. apply filter_In in F as [F G]. cbn [snd] in G. apply gone_expired in G.
      apply (Permutation_in _ P) in F. assert (l' = l); [|subst; contradiction]. exact (nodup_fun (ca_query ca) q l' l ND F X).
  - intros ->. rewrite EO. apply A4. reflexivity.
  - intros ->. cbn [andb] in EO. specialize (A5 eq_refl ltac:(reflexivity)).
    assert (CO : concat out = flat_map snd (filter (fun e => gone (ca_heap ca) d now (snd e)) entries)).
    { rewrite <- A2, EO. destruct (0 <? zlen batch) eqn:B; [rewrite concat_app; cbn [concat]; rewrite app_nil_r; reflexivity|]. apply Z.ltb_ge in B. destruct batch; [rewrite app_nil_r; reflexivity|rewrite zlen_cons in B; pose proof (zlen_nonneg batch); lia]. }
    split; [|split].
    + exists (filter (fun e => gone (ca_heap ca) d now (snd e)) entries). split; [|split].
      * intros q l. rewrite filter_In. cbn [snd]. rewrite gone_expired. split; intros [X Y]; (split; [|exact Y]); [apply (Permutation_in _ P); exact X|apply (Permutation_in _ (Permutation_sym P)); exact X].
      * apply NoDup_filter_fst. apply (Permutation_NoDup (Permutation_map fst (Permutation_sym P)) ND).
      * rewrite CO. apply Permutation_refl.
    + assert (FO : Forall (fun b : list nat => b <> []) o) by (apply (Forall_impl _ (P := fun b => 64 <= zlen b)); [|exact A3]; intros [|x b] X; [cbn in X; lia|discriminate]).
      rewrite EO. destruct (0 <? zlen batch) eqn:B; [|exact FO]. apply Forall_app. split; [exact FO|]. constructor; [|constructor]. intros ->. discriminate B.
    + intros a b c E NE. assert (IO : In b o).
      { rewrite EO in E. destruct (0 <? zlen batch); [|rewrite E; apply in_app_iff; right; left; reflexivity].
        destruct (exists_last NE) as (c' & x & ->). rewrite app_comm_cons, app_assoc in E. apply app_inj_tail in E as [E _]. rewrite E. apply in_app_iff. right. left. reflexivity. }
      rewrite Forall_forall in A3. apply A3. exact IO.
Qed.
Theorem C60_reachable : forall pr sessions es c, crun pr (cstart sessions) es = Ok c -> NoDup (map fst (ca_query (ct_ca c))).
Proof. exact qnodup_run. Qed.
(** Two expired sends of 70 and 3 results, one without results, one not expired. *)
Example C60_case :
  let heap := map (fun i => Result 1 [] i 0 [] [] (if i <? 73 then 100 else 900) 0 0) (map Z.of_nat (seq 0 80)) in
  let ca := Caches heap [] [] [(1, seq 0 70); (2, seq 70 3); (3, []); (4, seq 73 5)] in
  let '(ca', out) := cleanQueryCacheMap true ca 60 500 [(1, seq 0 70); (2, seq 70 3); (3, []); (4, seq 73 5)] in
  ca_query ca' = [(4, seq 73 5)] /\ map (@length nat) out = [70; 3]%nat /\ concat out = seq 0 73.
Proof. vm_compute. repeat split. Qed.
Print Assumptions C60_sweep.
Print Assumptions C60_reachable.
