(** * PropSubmitEnd: property C70 (what a query shows is what the server answered to that packet). *)
From Coq Require Import Sorting.Permutation.
From Verif Require Import Base UtilsModel OptionsModel SpecText SpecWire CmppModel SgipModel SmgpModel FrameModel SpecFrame SpecServer ServerModel ServerProofs PropFrame PropServer PropWindow PropAnswers
  PropLogins CmppBuildProofs ClientModel SpecClient ClientProofs PropClient PropEnd SubmitEndProofs.
From Verif Require RecvModel.

(** ** The two programs on one connection *)
(** The packets session i of the client received, in order, as they were on the wire. *)
Definition down (i : nat) (log : list cobs) : list bytes :=
  flat_map (fun o => match o with OGotP j _ cmd seq body => if (j =? i)%nat then [wire_of cmd seq body] else [] | _ => [] end) log.
(** One connection of a server: its parameters, the time of the accept, what happened to it, the
    login packet it got first, and its state now. *)
Record node := Node { nd_pr : params; nd_now : Z; nd_es : list (event * orc); nd_login : packet; nd_conn : sconn }.
(** Session i of the client and the server's connection n are the two ends of one TCP connection:
    the server read some prefix of what the client wrote (its login, then all its packets, in any
    segmentation), and the client got some prefix of what the server wrote (the login answer first). *)
Definition joined (log : list cobs) (i : nat) (n : node) : Prop :=
  pr_p (nd_pr n) = P_SGIP /\ run (nd_pr n) (opened (nd_now n)) (nd_es n) = Ok (nd_conn n)
  /\ segs_ok (nd_es n) /\ ids_ok (nd_es n) /\ dly_ok (nd_es n)
  /\ framed (PropFrame.wire (nd_login n)) /\ pk_cmd (nd_login n) = 1
  /\ (exists tail, received (nd_es n) ++ tail = concat (PropFrame.wire (nd_login n) :: up i log))
  /\ (exists ans rest, written (sc_log (nd_conn n)) = ans :: down i log ++ rest).
(** The result codes a server wrote in answer to packet b. *)
Definition codes_for (b : bytes) (log : list obs) : list Z :=
  flat_map (fun o => match o with OOut (KSubmit k _ code) _ => if beqb (PropFrame.wire k) b then [code] else [] | _ => [] end) log.

(** ** Lemmas *)
Lemma sub_count {A} (dec : forall x y : A, {x = y} + {x <> y}) (l m : list A) x : sub l m -> (count_occ dec l x <= count_occ dec m x)%nat.
Proof. induction 1; cbn [count_occ]; [lia| |]; destruct (dec _ x); lia. Qed.
Lemma last_some k a : forall log x, fold_left (la_step k) log x = Some a -> x = Some a \/ exists o, In o log /\ sg_answer o = Some a /\ sa_key a = k.
Proof.
  induction log as [|o log IH]; intros x H; cbn [fold_left] in H; [left; exact H|]. apply IH in H as [H|(o' & I & R)]; [|right; exists o'; split; [right; exact I|exact R]].
  assert (C : (exists t p ph b, o = ORec t p ph b) \/ la_step k x o = match sg_answer o with Some a => if sa_key a =? k then Some a else x | None => x end) by (destruct o; eauto 6).
  destruct C as [(t & p & ph & b & ->)|C].
  - cbn [la_step] in H. destruct (_ =? _); [discriminate H|]. left. exact H.
  - rewrite C in H. destruct (sg_answer o) as [a'|] eqn:E; [|left; exact H]. destruct (sa_key a' =? k) eqn:K; [|left; exact H]. injection H as ->. apply Z.eqb_eq in K.
    right. exists o. split; [left; reflexivity|auto].
Qed.
(** After an answer to k the last answer to k is never none, unless the packet is recorded again. *)
Lemma last_stays k : forall log x, x <> None -> (forall t p ph b, In (ORec t p ph b) log -> wire_key p b <> k) -> fold_left (la_step k) log x <> None.
Proof.
  induction log as [|o log IH]; intros x X N; cbn [fold_left]; [exact X|]. apply IH; [|intros t p ph b I; apply (N t p ph b); right; exact I].
  assert (C : (exists t p ph b, o = ORec t p ph b) \/ la_step k x o = match sg_answer o with Some a => if sa_key a =? k then Some a else x | None => x end) by (destruct o; eauto 6).
  destruct C as [(t & p & ph & b & ->)|C].
  - cbn [la_step]. specialize (N t p ph b (or_introl eq_refl)). destruct (_ =? _) eqn:E; [apply Z.eqb_eq in E; contradiction|exact X].
  - rewrite C. destruct (sg_answer o) as [a'|]; [|exact X]. destruct (_ =? _); [discriminate|exact X].
Qed.
Lemma one_write ps log z : NoDup (wkeys ps log) -> forall t i b t' i' b', In (OWrote t i b) log -> In (OWrote t' i' b') log -> wire_key (proto_at ps i) b = z -> wire_key (proto_at ps i') b' = z ->
  t = t' /\ i = i' /\ b = b'.
Proof.
  induction log as [|o log IH]; intros ND t i b t' i' b' I I' K K'; [destruct I|].
  assert (X : forall t i b, In (OWrote t i b) log -> wire_key (proto_at ps i) b = z -> In z (wkeys ps log)).
  { intros t0 i0 b0 J Q. apply in_flat_map. exists (OWrote t0 i0 b0). split; [exact J|left; exact Q]. }
  change (wkeys ps (o :: log)) with ((match o with OWrote _ i b => [wire_key (proto_at ps i) b] | _ => [] end) ++ wkeys ps log) in ND.
  assert (ND1 : NoDup (wkeys ps log)) by (destruct o; cbn [app] in ND; try exact ND; inversion ND; assumption).
  destruct I as [->|I], I' as [E|I'].
  - injection E as -> -> ->. auto.
  - cbn [app] in ND. inversion ND as [|? ? N _]. exfalso. apply N. rewrite K. eapply X; eauto.
  - subst o. cbn [app] in ND. inversion ND as [|? ? N _]. exfalso. apply N. rewrite K'. eapply X; eauto.
  - exact (IH ND1 _ _ _ _ _ _ I I' K K').
Qed.
Lemma wire_parts k : PropFrame.wire k = (be 4 (12 + zlen (pk_body k)) ++ be 4 (pk_cmd k) ++ be 4 (pk_seq k)) ++ pk_body k.
Proof. unfold PropFrame.wire, wire_of. rewrite <- !app_assoc. reflexivity. Qed.
Lemma wire_says k : says (PropFrame.wire k) (pk_cmd k).
Proof. unfold says, PropFrame.wire, wire_of. rewrite skipn_app, length_be. rewrite skipn_all2 by (rewrite length_be; lia). cbn [app Nat.sub skipn]. rewrite firstn_app, length_be. rewrite firstn_all2 by (rewrite length_be; lia). cbn [Nat.sub]. rewrite firstn_O, app_nil_r. reflexivity. Qed.
Lemma be_inj n a b : 0 <= a < 256 ^ Z.of_nat n -> 0 <= b < 256 ^ Z.of_nat n -> be n a = be n b -> a = b.
Proof. intros A B E. apply (f_equal unbe) in E. rewrite !(unbe_be_small n) in E by assumption. exact E. Qed.
Lemma app_len_inv {A} : forall a a' (b b' : list A), length a = length a' -> a ++ b = a' ++ b' -> a = a' /\ b = b'.
Proof. induction a as [|x a IH]; intros [|x' a'] b b' L E; try discriminate L; [auto|]. cbn [app] in E. injection E as -> E. injection L as L. destruct (IH _ _ _ L E) as [-> ->]. auto. Qed.
Lemma wire_inj p k k' : legal p k -> legal p k' -> PropFrame.wire k = PropFrame.wire k' -> k = k'.
Proof.
  intros (A1 & A2 & A3 & A4) (B1 & B2 & B3 & B4) E. rewrite !wire_parts in E.
  apply app_len_inv in E as [E Y]; [|rewrite !app_length, !length_be; reflexivity].
  apply app_len_inv in E as [_ E]; [|rewrite !length_be; reflexivity]. apply app_len_inv in E as [E1 E2]; [|rewrite !length_be; reflexivity].
  destruct k as [c s b], k' as [c' s' b']. cbn [pk_cmd pk_seq pk_body] in *.
  f_equal; [|apply (be_inj 4); assumption|exact Y].
  assert (R : forall c, In c (commands p) -> 0 <= c < 256 ^ Z.of_nat 4).
  { intros x K. apply commands_range in K. change (256 ^ Z.of_nat 4) with (2 ^ 32). unfold RESP, req_max in K. destruct p; lia. }
  apply (be_inj 4); auto.
Qed.
Definition bdec : forall x y : bytes, {x = y} + {x <> y} := list_eq_dec Z.eq_dec.
(** A submit written once is on the link once. *)
Lemma up_once ps log i b : proto_at ps i = P_SGIP -> (forall o, In o log -> match o with OReply j x => proto_at ps j = P_SGIP -> says x 2147483650 | _ => True end) -> says b 3 ->
  (count_occ bdec (up i log) b <= cnt (wire_key P_SGIP b) (wkeys ps log))%nat.
Proof.
  intros P H S3. induction log as [|o log IH]; [cbn; lia|].
  assert (IH' := IH (fun o I => H o (or_intror I))).
  change (up i (o :: log)) with ((match o with OWrote _ j b | OReply j b => if (j =? i)%nat then [b] else [] | _ => [] end) ++ up i log).
  change (wkeys ps (o :: log)) with ((match o with OWrote _ i b => [wire_key (proto_at ps i) b] | _ => [] end) ++ wkeys ps log).
  rewrite cnt_app, count_occ_app. specialize (H o (or_introl eq_refl)). clear IH.
  enough (Q : (count_occ bdec (match o with OWrote _ j b | OReply j b => if (j =? i)%nat then [b] else [] | _ => [] end) b
      <= cnt (wire_key P_SGIP b) (match o with OWrote _ i b => [wire_key (proto_at ps i) b] | _ => [] end))%nat) by lia.
  destruct o as [ |t j x| | | | |j x]; try (cbn; lia).
  - destruct (j =? i)%nat eqn:E; [|cbn; lia]. apply Nat.eqb_eq in E. subst j. rewrite P. unfold cnt. cbn [count_occ]. destruct (bdec x b) as [->|]; [|lia]. destruct (Z.eq_dec _ _); [lia|congruence].
  - destruct (j =? i)%nat eqn:E; [|cbn; lia]. apply Nat.eqb_eq in E. subst j. specialize (H P). cbn [count_occ cnt]. destruct (bdec x b) as [->|]; [|lia].
    exfalso. assert (X : 3 = 2147483650) by (apply (says_one b); [exact S3|exact H|lia|lia]). discriminate X.
Qed.
Definition pdec : forall x y : packet, {x = y} + {x <> y}.
Proof. intros x y. destruct (same_pk x y) eqn:E; [left; apply same_pk_iff; exact E|right; intros H; apply same_pk_iff in H; congruence]. Defined.
Lemma served_count k : forall log, count (is_served k true) log + count (is_served k false) log = Z.of_nat (count_occ pdec (serves log) k).
Proof.
  induction log as [|o log IH]; [reflexivity|]. rewrite !count_cons. change (serves (o :: log)) with ((match o with OServe k _ => [k] | _ => [] end) ++ serves log).
  rewrite count_occ_app, Nat2Z.inj_add, <- IH. enough (Q : (if is_served k true o then 1 else 0) + (if is_served k false o then 1 else 0) = Z.of_nat (count_occ pdec match o with OServe k _ => [k] | _ => [] end k)) by lia.
  destruct o as [ |k0 x0| | | ]; cbn [is_served count_occ]; try reflexivity. destruct (pdec k0 k) as [->|N].
  - assert (X : same_pk k k = true) by (apply same_pk_iff; reflexivity). rewrite X. destruct x0; reflexivity.
  - destruct (same_pk k k0) eqn:E; [apply same_pk_iff in E; congruence|]. destruct x0; reflexivity.
Qed.
Lemma codes_count k : forall log, (forall k' x c b, In (OOut (KSubmit k' x c) b) log -> PropFrame.wire k' = PropFrame.wire k -> k' = k) ->
  zlen (codes_for (PropFrame.wire k) log) <= count (is_answer k true) log + count (is_answer k false) log.
Proof.
  induction log as [|o log IH]; intros H; [cbn; lia|]. rewrite !count_cons. specialize (IH (fun k' x c b I => H k' x c b (or_intror I))).
  change (codes_for (PropFrame.wire k) (o :: log)) with ((match o with OOut (KSubmit k' _ code) _ => if beqb (PropFrame.wire k') (PropFrame.wire k) then [code] else [] | _ => [] end) ++ codes_for (PropFrame.wire k) log).
  rewrite zlen_app. enough (Q : zlen (match o with OOut (KSubmit k' _ code) _ => if beqb (PropFrame.wire k') (PropFrame.wire k) then [code] else [] | _ => [] end) <= (if is_answer k true o then 1 else 0) + (if is_answer k false o then 1 else 0)) by lia.
  destruct o as [ | | |kd b| ]; try (cbn; lia). destruct kd as [ |k' x c| | | | | | ]; try (cbn; lia).
  destruct (beqb _ _) eqn:E; [|pose proof (zlen_nonneg (@nil Z)); cbn; destruct (same_pk k k'), x; cbn; lia].
  apply beqb_iff in E. apply (H k' x c b) in E; [|left; reflexivity]. subst k'. cbn [is_answer]. assert (X : same_pk k k = true) by (apply same_pk_iff; reflexivity). rewrite X. destruct x; cbn; lia.
Qed.
Lemma in_count {A} (f : A -> bool) l x : In x l -> f x = true -> 1 <= count f l.
Proof. intros I F. unfold count. assert (X : In x (filter f l)) by (apply filter_In; auto). destruct (filter f l); [destruct X|cbn [length]; lia]. Qed.
Lemma count_in {A} (f : A -> bool) l : 1 <= count f l -> exists x, In x l /\ f x = true.
Proof. unfold count. intros H. destruct (filter f l) as [|x r] eqn:E; [cbn in H; lia|]. exists x. apply filter_In. rewrite E. left. reflexivity. Qed.
Lemma wire_map_count k l : (count_occ pdec l k <= count_occ bdec (map PropFrame.wire l) (PropFrame.wire k))%nat.
Proof. induction l as [|a l IH]; cbn [map count_occ]; [lia|]. destruct (pdec a k) as [->|]; destruct (bdec _ _); try lia; congruence. Qed.

(** What the server's answers are answers to: a packet the client wrote on this connection, and the
    only answer to it. *)
Lemma answer_from ps log i n : joined log i n -> proto_at ps i = P_SGIP -> (forall o, In o log -> obs_state ps log o) -> NoDup (wkeys ps log) ->
  forall k x code out, In (OOut (KSubmit k x code) out) (sc_log (nd_conn n)) ->
    exists t, In (OWrote t i (PropFrame.wire k)) log /\ codes_for (PropFrame.wire k) (sc_log (nd_conn n)) = [code] /\ submit_answer P_SGIP k code out /\ (code = 0 \/ code = 33).
Proof.
  intros (P & R & SG & ID & DL & FL & CL & (tail & UP) & _) PI OS ND.
  destruct n as [pr now es lk s]. cbn [nd_pr nd_now nd_es nd_login nd_conn] in *.
  assert (OKS : sg_ok s) by (apply (sg_run pr es P DL (opened now)); [split; [intros t []|split; [intros it []|intros kd b []]]|exact R]).
  destruct (C51_answers pr now es s SG ID R) as (CNT & ANS & _).
  assert (FR : Forall framed (PropFrame.wire lk :: up i log)).
  { constructor; [exact FL|]. apply Forall_forall. intros b I. apply in_flat_map in I as (o & I & J). apply OS in I.
    destruct o as [ |t j y| | | | |j y]; try destruct J; destruct (j =? i)%nat eqn:E; try destruct J as [<-|[]]; try destruct J; apply Nat.eqb_eq in E; subst j; cbn [obs_state] in I; apply I; exact PI. }
  destruct (frames_run pr es (opened now) s _ R FR) as (l & LG & S1 & S2 & S3); [constructor|exact SG|intros _; exists tail; exact UP|].
  cbn [opened sc_log app] in LG. subst l.
  assert (KEY : forall k x code out, In (OOut (KSubmit k x code) out) (sc_log s) -> pk_cmd k = 3 /\ legal P_SGIP k /\ In (PropFrame.wire k) (up i log)).
  { intros k x code out I. destruct OKS as (_ & _ & OO). pose proof (OO _ _ I) as K3. cbn [sg_out] in K3. split; [exact K3|].
    assert (IS : is_submit (pr_p pr) k) by (unfold is_submit; rewrite P; exact K3).
    assert (A1 : 1 <= count (is_answer k x) (sc_log s)).
    { apply (in_count _ _ _ I). cbn [is_answer]. apply andb_true_iff. split; [apply same_pk_iff; reflexivity|destruct x; reflexivity]. }
    specialize (CNT k x IS). destruct (count_in (is_served k x) (sc_log s)) as (o & IO & EO); [lia|]. destruct o as [ |k' x'| | | ]; try discriminate EO. cbn [is_served] in EO.
    apply andb_true_iff in EO as [EO _]. apply same_pk_iff in EO. subst k'.
    assert (IG : In k (gots (sc_log s))) by (apply (sub_in _ _ _ S2); apply in_flat_map; exists (OServe k x'); split; [exact IO|left; reflexivity]).
    rewrite Forall_forall in S3. split; [rewrite <- P; apply S3; exact IG|].
    assert (IW : In (PropFrame.wire k) (PropFrame.wire lk :: up i log)) by (apply (sub_in _ _ _ S1), in_map; exact IG).
    destruct IW as [E|IW]; [|exact IW]. exfalso. pose proof (wire_says k) as W1. pose proof (wire_says lk) as W2. rewrite E in W2. rewrite CL in W2. rewrite K3 in W1.
    assert (X : 1 = 3) by (apply (says_one (PropFrame.wire k)); [exact W2|exact W1|lia|lia]). discriminate X. }
  intros k x code out I. destruct (KEY _ _ _ _ I) as (K3 & LK & IU). pose proof (wire_says k) as W3. rewrite K3 in W3.
  assert (IW : exists t, In (OWrote t i (PropFrame.wire k)) log).
  { apply in_flat_map in IU as (o & IO & J). pose proof (OS _ IO) as Q. destruct o as [ |t j y| | | | |j y]; try destruct J; destruct (j =? i)%nat eqn:E; try destruct J; try contradiction; apply Nat.eqb_eq in E; subst j y; cbn [obs_state] in Q.
    - exists t. exact IO.
    - exfalso. destruct (Q PI) as [_ Q2]. assert (X : 3 = 2147483650) by (apply (says_one (PropFrame.wire k)); [exact W3|exact Q2|lia|lia]). discriminate X. }
  destruct IW as [t IW]. exists t. split; [exact IW|]. destruct (ANS _ _ _ _ I) as [SA RO]. rewrite P in SA, RO. split; [|split; [exact SA|unfold result_ok in RO; destruct x; lia]].
  assert (L1 : zlen (codes_for (PropFrame.wire k) (sc_log s)) <= 1).
  { assert (IS : is_submit (pr_p pr) k) by (unfold is_submit; rewrite P; exact K3).
    pose proof (codes_count k (sc_log s)) as C1. pose proof (CNT k true IS) as C2. pose proof (CNT k false IS) as C3. pose proof (served_count k (sc_log s)) as C4.
    pose proof (sub_count pdec _ _ k S2) as C5. pose proof (wire_map_count k (gots (sc_log s))) as C6. pose proof (sub_count bdec _ _ (PropFrame.wire k) S1) as C7. cbn [count_occ] in C7.
    assert (C8 : (count_occ bdec (up i log) (PropFrame.wire k) <= 1)%nat).
    { etransitivity; [apply (up_once ps log i _ PI)|]; [|exact W3|].
      - intros o IO. apply OS in IO. destruct o; try exact Logic.I. cbn [obs_state] in IO. intros Q. exact (proj2 (IO Q)).
      - unfold cnt. apply (proj1 (NoDup_count_occ Z.eq_dec _) ND). }
    destruct (bdec (PropFrame.wire lk) (PropFrame.wire k)) as [E|_].
    { exfalso. pose proof (wire_says lk) as W2. rewrite E, CL in W2. assert (X : 1 = 3) by (apply (says_one (PropFrame.wire k)); [exact W2|exact W3|lia|lia]). discriminate X. }
    assert (C9 : zlen (codes_for (PropFrame.wire k) (sc_log s)) <= count (is_answer k true) (sc_log s) + count (is_answer k false) (sc_log s)).
    { apply C1. intros k' x' c b IK E. destruct (KEY _ _ _ _ IK) as (_ & LK' & _). exact (wire_inj P_SGIP k' k LK' LK E). }
    lia. }
  assert (IC : In code (codes_for (PropFrame.wire k) (sc_log s))).
  { apply in_flat_map. exists (OOut (KSubmit k x code) out). split; [exact I|]. assert (B : beqb (PropFrame.wire k) (PropFrame.wire k) = true) by (apply beqb_iff; reflexivity). rewrite B. left. reflexivity. }
  destruct (codes_for _ _) as [|c [|d r]]; [destruct IC| |exfalso; unfold zlen in L1; cbn [length] in L1; lia]. destruct IC as [->|[]]. reflexivity.
Qed.
Lemma recs_once ps c : cinv ps c -> NoDup (wkeys ps (ct_log c)) -> NoDup (map snd (recs (ct_log c))).
Proof. intros I ND. apply (NoDup_count_occ Z.eq_dec). intros z. pose proof (proj1 (NoDup_count_occ Z.eq_dec _) ND z). pose proof (ci_cnt _ _ I z) as X. unfold cnt in X. lia. Qed.
Lemma key_halves (b : bytes) : 8 <= zlen b -> unbe (firstn 4 b) * 2 ^ 32 + unbe (firstn 4 (skipn 4 b)) = unbe (firstn 8 b).
Proof.
  intros L. assert (E : firstn 8 b = firstn 4 b ++ firstn 4 (skipn 4 b)).
  { rewrite <- (firstn_skipn 4 b) at 1. rewrite firstn_app. assert (X : length (firstn 4 b) = 4%nat) by (rewrite firstn_length; unfold zlen in L; unfold bytes in *; lia). rewrite X. rewrite firstn_firstn. reflexivity. }
  rewrite E, unbe_app. f_equal. f_equal. change (2 ^ 32) with (256 ^ 4). f_equal. unfold zlen in *. unfold bytes in *. rewrite firstn_length, skipn_length. lia.
Qed.
Lemma skip_head cmd seq body : skipn 12 (wire_of cmd seq body) = body.
Proof.
  unfold wire_of. rewrite !app_assoc, skipn_app, skipn_all2 by (rewrite !app_length, !length_be; reflexivity). rewrite !app_length, !length_be. reflexivity.
Qed.
Lemma wire_len cmd seq body : zlen (wire_of cmd seq body) = 12 + zlen body.
Proof. unfold wire_of. rewrite !zlen_app, !zlen_be. lia. Qed.
(** The answer on the wire carries the key of the packet it answers, and its code. *)
Lemma answer_key k code cmd seq body : submit_answer P_SGIP k code (wire_of cmd seq body) ->
  says (wire_of cmd seq body) 2147483651 /\ zlen body = 17 /\ unbe (firstn 4 body) * 2 ^ 32 + unbe (firstn 4 (skipn 4 body)) = wire_key P_SGIP (PropFrame.wire k) /\ nth 8 body 0 = code.
Proof.
  cbn [submit_answer]. intros (A & B & C & D). rewrite skip_head in B. rewrite wire_len in C.
  split.
  { unfold says. rewrite window_firstn. cbn [Nat.add]. replace (firstn 8 (wire_of cmd seq body)) with (firstn 8 (firstn 12 (wire_of cmd seq body))) by (rewrite firstn_firstn; reflexivity). rewrite A. reflexivity. }
  split; [lia|]. split.
  - rewrite key_halves by lia. rewrite B. cbn [wire_key]. unfold PropFrame.wire. rewrite skip_head. reflexivity.
  - rewrite <- D. rewrite <- (skip_head cmd seq body) at 1. rewrite <- (firstn_skipn 12 (wire_of cmd seq body)) at 2. rewrite app_nth2; rewrite firstn_length; pose proof (wire_len cmd seq body) as WL; unfold zlen in WL, C; unfold bytes in *; [|lia].
    reflexivity.
Qed.

(** ** C70: end to end, a query shows the server's answer to that very packet *)
(** Shown for SGIP: whatever the schedule on both ends, whatever a query returns is the result of a
    packet that was written on some session; it shows nothing, or exactly the one result code that
    the server at the other end of that session wrote in answer to that packet (0, or 33 for
    flow control).  Assumed: the packets got different keys, the result did not expire in the cache
    by sequence id, and simulated deliveries are not submit answers.  (Missing for the full C70:
    CMPP and SMGP, where nothing is ever shown, and answers before the result is recorded;
    refuted in C57_refuted_cmpp_smgp, C57_refuted and C57_refuted_race.) *)
Theorem C70_sgip_partial : forall pr sessions es c nodes q rs r, crun pr (cstart sessions) es = Ok c -> Forall got_ok es ->
  NoDup (wkeys (map cs_p sessions) (ct_log c)) -> (forall i, proto_at (map cs_p sessions) i = P_SGIP -> joined (ct_log c) i (nodes i)) ->
  Query (ct_ca c) q = Ok (Some rs) -> In r rs -> fresh es r ->
  exists t i b, In (OWrote t i b) (ct_log c) /\ In (ORec t (proto_at (map cs_p sessions) i) (rt_phone r) b) (ct_log c) /\ wire_key (proto_at (map cs_p sessions) i) b = rt_seq r
    /\ ((rt_result r = 0 /\ rt_msgid r = [] /\ rt_resp r = 0)
        \/ (proto_at (map cs_p sessions) i = P_SGIP /\ codes_for b (sc_log (nd_conn (nodes i))) = [rt_result r] /\ (rt_result r = 0 \/ rt_result r = 33) /\ zlen (rt_msgid r) = 28)).
Proof.
  intros pr sessions es c nodes q rs r H G ND JN Q IN F. set (ps := map cs_p sessions) in *.
  pose proof (cinv_run pr ps es _ _ (cinv_start sessions) H) as CI. pose proof (ci_log _ _ CI) as OS.
  destruct (C57_sgip_partial pr sessions es c q rs r H G (recs_once ps c CI ND) Q IN F) as [(t & R) SH].
  apply in_flat_map in R as (o & IO & R). destruct o as [ | |t' p ph b| | | | ]; try destruct R; try contradiction. injection H0 as -> -> K.
  pose proof (OS _ IO) as (i & IW & ->). exists t, i, b. split; [exact IW|]. split; [exact IO|]. split; [exact K|].
  destruct (last_answer (ct_log c) (rt_seq r)) as [a|] eqn:LA; [right|left; exact SH].
  destruct (last_some _ _ _ _ LA) as [X|(o & IA & SA & KA)]; [discriminate X|].
  destruct o as [ | | | | |j p cmd seq body| ]; try discriminate SA. cbn [sg_answer] in SA. destruct p; try discriminate SA. destruct ((cmd =? 2147483651) && (9 <=? zlen body)) eqn:E; [|discriminate SA].
  apply andb_true_iff in E as [E1 E2]. apply Z.eqb_eq in E1. apply Z.leb_le in E2. assert (EA : a = SGAnswer seq (unbe (firstn 4 body)) (unbe (firstn 4 (skipn 4 body))) (nth 8 body 0)) by congruence. clear SA. subst a cmd. unfold sa_key in KA. cbn [sa_b sa_c] in KA.
  pose proof (OS _ IA) as PJ. cbn [obs_state] in PJ. symmetry in PJ. pose proof (JN j PJ) as JJ. pose proof JJ as (P & RN & SG & ID & DL & _ & _ & _ & (ans & rest & DN)).
  assert (IO2 : exists kd, In (OOut kd (wire_of 2147483651 seq body)) (sc_log (nd_conn (nodes j)))).
  { assert (X : In (wire_of 2147483651 seq body) (written (sc_log (nd_conn (nodes j))))).
    { rewrite DN. right. apply in_or_app. left. apply in_flat_map. exists (OGotP j P_SGIP 2147483651 seq body). split; [exact IA|]. rewrite Nat.eqb_refl. left. reflexivity. }
    apply in_flat_map in X as (o & IX & X). destruct o as [ | | |kd b0| ]; try destruct X; try contradiction. subst b0. exists kd. exact IX. }
  destruct IO2 as [kd IO2].
  assert (OKS : sg_ok (nd_conn (nodes j))) by (apply (sg_run (nd_pr (nodes j)) (nd_es (nodes j)) P DL (opened (nd_now (nodes j)))); [split; [intros ? []|split; [intros ? []|intros ? ? []]]|exact RN]).
  destruct OKS as (_ & _ & OO). pose proof (OO _ _ IO2) as SO. pose proof (wire_says (Packet 2147483651 seq body)) as WS. unfold PropFrame.wire in WS. cbn [pk_cmd pk_seq pk_body] in WS.
  destruct kd as [ |k x code| | | | | | ]; try (exfalso; exact (SO WS)).
  destruct (answer_from ps (ct_log c) j (nodes j) JJ PJ OS ND _ _ _ _ IO2) as (t2 & IW2 & CF & SA & RC).
  destruct (answer_key _ _ _ _ _ SA) as (_ & _ & KK & CO). rewrite KA in KK.
  destruct (one_write ps (ct_log c) (rt_seq r) ND t i b t2 j (PropFrame.wire k) IW IW2 K) as (<- & <- & ->); [rewrite PJ; symmetry; exact KK|].
  destruct SH as [SR ST]. cbn [sa_code] in SR. rewrite CO in SR. rewrite SR. split; [exact PJ|]. split; [exact CF|]. split; [exact RC|].
  destruct ST as (x1 & y1 & z1 & -> & X1 & X2 & X3 & _). rewrite !zlen_app. lia.
Qed.
(** And it does show it: if the answer of the server to a packet comes to the client after its result
    was recorded, the query shows the code of that answer. *)
Theorem C70_shown_partial : forall pr sessions es c nodes q rs r t i k x code cmd seq body l1 l2, crun pr (cstart sessions) es = Ok c -> Forall got_ok es ->
  NoDup (wkeys (map cs_p sessions) (ct_log c)) -> (forall i, proto_at (map cs_p sessions) i = P_SGIP -> joined (ct_log c) i (nodes i)) ->
  Query (ct_ca c) q = Ok (Some rs) -> In r rs -> fresh es r ->
  ct_log c = l1 ++ ORec t P_SGIP (rt_phone r) (PropFrame.wire k) :: l2 -> wire_key P_SGIP (PropFrame.wire k) = rt_seq r -> In (OGotP i P_SGIP cmd seq body) l2 -> 0 <= cmd < 2 ^ 32 ->
  In (OOut (KSubmit k x code) (wire_of cmd seq body)) (sc_log (nd_conn (nodes i))) ->
  rt_result r = code /\ zlen (rt_msgid r) = 28.
Proof.
  intros pr sessions es c nodes q rs r t i k x code cmd seq body l1 l2 H G ND JN Q IN F EL K IG RG IO. set (ps := map cs_p sessions) in *.
  pose proof (cinv_run pr ps es _ _ (cinv_start sessions) H) as CI. pose proof (ci_log _ _ CI) as OS. pose proof (recs_once ps c CI ND) as NR.
  destruct (C57_sgip_partial pr sessions es c q rs r H G NR Q IN F) as [_ SH].
  assert (PJ : proto_at ps i = P_SGIP) by (symmetry; apply (OS (OGotP i P_SGIP cmd seq body)); rewrite EL; apply in_or_app; right; right; exact IG).
  destruct (answer_from ps (ct_log c) i (nodes i) (JN i PJ) PJ OS ND _ _ _ _ IO) as (t2 & IW2 & CF & SA & RC).
  destruct (answer_key _ _ _ _ _ SA) as (SY & LB & KK & CO). rewrite K in KK.
  assert (CM : cmd = 2147483651) by (apply (says_one (wire_of cmd seq body)); [exact (wire_says (Packet cmd seq body))|exact SY|exact RG|lia]). subst cmd.
  assert (NN : last_answer (ct_log c) (rt_seq r) <> None).
  { apply in_split in IG as (m1 & m2 & ->). rewrite EL. unfold last_answer. rewrite fold_left_app. cbn [fold_left]. rewrite fold_left_app. cbn [fold_left].
    apply last_stays.
    - cbn [la_step sg_answer]. replace (9 <=? zlen body) with true by (symmetry; apply Z.leb_le; lia). cbn [Z.eqb Pos.eqb andb]. unfold sa_key. cbn [sa_b sa_c]. rewrite KK, Z.eqb_refl. discriminate.
    - intros t' p' ph' b' I E. rewrite EL in NR. unfold recs in NR. rewrite flat_map_app in NR. cbn [flat_map app] in NR. rewrite map_app in NR. cbn [map snd] in NR. apply NoDup_remove_2 in NR. apply NR.
      apply in_or_app. right. rewrite K, <- E. apply in_map_iff. exists (t', ph', wire_key p' b'). split; [reflexivity|]. apply in_flat_map. exists (ORec t' p' ph' b'). split; [apply in_or_app; right; right; exact I|left; reflexivity]. }
  destruct (C70_sgip_partial pr sessions es c nodes q rs r H G ND JN Q IN F) as (t3 & i3 & b3 & IW3 & IR3 & K3 & [B|(P3 & CF3 & _ & ML)]).
  - exfalso. destruct (last_answer (ct_log c) (rt_seq r)) as [a|]; [|congruence]. destruct SH as [_ (x1 & y1 & z1 & E & X1 & X2 & X3 & _)]. destruct B as (_ & B & _). rewrite B in E. apply (f_equal zlen) in E. rewrite !zlen_app in E. change (zlen []) with 0 in E. lia.
  - split; [|exact ML]. fold ps in P3, K3, IR3. destruct (one_write ps (ct_log c) (rt_seq r) ND t3 i3 b3 t2 i (PropFrame.wire k) IW3 IW2 K3) as (-> & -> & ->); [rewrite PJ; exact K|]. congruence.
Qed.
Print Assumptions C70_sgip_partial.
Print Assumptions C70_shown_partial.

(** ** Example *)
(** The client logs in and submits "Hi" to 130; the server refuses with 33 (its simulated congestion);
    the submit arrives in two segments.  All assumptions hold and the query shows 33. *)
Definition two_login : bytes := Eval vm_compute in get [] (RecvModel.login_packet end_md5 P_SGIP (end_acc (end_id P_SGIP) [115;51]) 7 (1, 2, 3) [49;49;49;54;48;48;48;48;48;48] 1116000000).
Definition two_busy : orc := Orc true true true 5 true false 1 2 3 (1, 2, 3) (repeat 0 10) (repeat 0 10) (repeat 48 10) (repeat 48 10) (repeat 48 10) 0 0 (fun _ => 0) None 0.
Definition two_client : list cevent := send_demo ++ [CGot 0 2147483651 3001 ([0;0;0;5] ++ [0;0;0;9] ++ [33] ++ repeat 0 8) (GOrc false 9 [])].
Definition two_log : list cobs := Eval vm_compute in get [] (c <- crun pr_demo (cstart [sess_demo P_SGIP]) two_client ;; Ok (ct_log c)).
Definition two_sent : bytes := Eval vm_compute in concat (up 0 two_log).
Definition two_es : list (event * orc) := arrivals [(firstn 20 two_login, end_orc 0); (skipn 20 two_login, end_orc 0)] ++ [(ETask 0, end_orc 0); (EWrite, end_orc 0)] ++
  arrivals [(firstn 9 two_sent, two_busy); (skipn 9 two_sent, two_busy)] ++ [(ETask 0, two_busy); (ETask 0, two_busy); (ETask 0, two_busy); (ETask 0, two_busy); (EWrite, two_busy)].
Definition two_conn : sconn := Eval vm_compute in get (opened 0) (run (end_pr P_SGIP) (opened 0) two_es).
Definition two_node : node := Node (end_pr P_SGIP) 0 two_es (Packet 1 1 (skipn 12 two_login)) two_conn.
Definition byteb (x : Z) : bool := (0 <=? x) && (x <? 256).
Lemma bytes_by l : forallb byteb l = true -> bytes_ok l.
Proof. intros H. apply Forall_forall. intros x I. rewrite forallb_forall in H. apply H in I. unfold byteb in I. unfold is_byte. lia. Qed.
Lemma two_joined : joined two_log 0 two_node.
Proof.
  unfold joined. split; [reflexivity|]. split; [vm_compute; reflexivity|].
  split. { unfold segs_ok, two_node, nd_es, two_es, arrivals. repeat (apply Forall_cons; [cbn [fst]; try exact Logic.I; apply bytes_by; vm_compute; reflexivity|]). apply Forall_nil. }
  split. { unfold ids_ok, two_node, nd_es, two_es, arrivals. repeat (apply Forall_cons; [vm_compute; reflexivity|]). apply Forall_nil. }
  split. { unfold dly_ok, two_node, nd_es, two_es, arrivals. repeat (apply Forall_cons; [intros b X; discriminate X|]). apply Forall_nil. }
  split. { split; [vm_compute; split; [discriminate|reflexivity]|vm_compute; reflexivity]. }
  split; [reflexivity|]. split.
  - exists []. vm_compute. reflexivity.
  - exists [0; 0; 0; 21; 128; 0; 0; 1; 0; 0; 0; 1; 0; 0; 0; 2; 0; 0; 0; 3; 0], []. vm_compute. reflexivity.
Qed.
Example C70_case : match crun pr_demo (cstart [sess_demo P_SGIP]) two_client with
  | Ok c => ct_log c = two_log /\ Query (ct_ca c) 77 = Ok (Some [Result 77 [49;51;48] (5 * 2 ^ 32 + 9) 33 ([48;48;48;48;48;48;51;48;48;49] ++ [48;48;48;48;48;48;48;48;48;53] ++ [48;48;48;48;48;48;48;57]) [] 6 9 0])
  | _ => False end
  /\ Forall got_ok two_client /\ NoDup (wkeys [P_SGIP] two_log) /\ (forall i, proto_at [P_SGIP] i = P_SGIP -> joined two_log i two_node)
  /\ codes_for two_sent (sc_log two_conn) = [33].
Proof.
  split; [vm_compute; auto|]. split.
  { unfold two_client, send_demo. cbn [app]. repeat (apply Forall_cons; [first [exact Logic.I|split; [lia|apply bytes_by; vm_compute; reflexivity]]|]). apply Forall_nil. }
  split; [vm_compute; repeat constructor; intros []|]. split; [|vm_compute; reflexivity].
  intros [|i] H; [exact two_joined|]. exfalso. cbn in H. destruct i; discriminate H.
Qed.
