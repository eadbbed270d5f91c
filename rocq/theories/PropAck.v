(** * PropAck: the client acknowledges what the gateway sends (C106). *)
From Verif Require Import Base UtilsModel OptionsModel TlvModel CmppModel SgipModel SmgpModel FrameModel PropPanics ClientModel SpecWire SpecFrame SpecClient ClientProofs PropClient PropGateway ServerProofs PropResponses.
From Verif Require PropCmpp.

(** ** Specification *)
(** The acknowledgement the protocols ask for.  CMPP: a deliver (5) is answered with its message id and
    result 0 (four bytes in version 3, one before), an active test (8) with one reserved byte, a
    terminate (2) with an empty body.  SGIP: an unbind (2) is answered under the same sequence number,
    a deliver (4) and a report (5) also with result 0 and eight reserved bytes.  SMGP: a deliver (3) is
    answered with its message id and status 0, active test (4) and exit (6) with empty bodies. *)
Definition due_ack (p : proto) (three : bool) (cmd seq : Z) (body : bytes) : list bytes :=
  match p with
  | P_CMPP => if cmd =? 5 then [wire_of (2 ^ 31 + 5) seq (firstn 8 body ++ if three then [0; 0; 0; 0] else [0])]
              else if cmd =? 8 then [wire_of (2 ^ 31 + 8) seq [0]]
              else if cmd =? 2 then [wire_of (2 ^ 31 + 2) seq []] else []
  | P_SGIP => if cmd =? 2 then [wire_of (2 ^ 31 + 2) seq (firstn 8 body)]
              else if (cmd =? 4) || (cmd =? 5) then [wire_of (2 ^ 31 + cmd) seq (firstn 8 body ++ [0] ++ repeat 0 8)] else []
  | P_SMGP => if cmd =? 3 then [wire_of (2 ^ 31 + 3) seq (firstn 10 body ++ [0; 0; 0; 0])]
              else if (cmd =? 4) || (cmd =? 6) then [wire_of (2 ^ 31 + cmd) seq []] else []
  end.
(** The text of an SMGP deliver that is no report cannot be decoded. *)
Definition unreadable (gbd : bytes -> option bytes) (body : bytes) : bool :=
  negb (nth 10 body 0 =? 1) && match gbd (firstn (Z.to_nat (nth 68 body 0)) (skipn 69 body)) with None => true | Some _ => false end.
(** What is sent: the same, except for SGIP delivers and reports (nothing) and SMGP delivers (the
    message id [id] is one the client drew itself; nothing if the text cannot be decoded). *)
Definition sent_ack (gbd : bytes -> option bytes) (p : proto) (three : bool) (cmd seq : Z) (body id : bytes) : list bytes :=
  match p with
  | P_SGIP => if (cmd =? 4) || (cmd =? 5) then [] else due_ack P_SGIP three cmd seq body
  | P_SMGP => if cmd =? 3 then (if unreadable gbd body then [] else [wire_of (2 ^ 31 + 3) seq (id ++ [0; 0; 0; 0])]) else due_ack P_SMGP three cmd seq body
  | P_CMPP => due_ack P_CMPP three cmd seq body
  end.
(** The session ends: asked for, or confirmed, by the gateway; the acknowledgement could not be
    written; the text of an SMGP deliver could not be decoded. *)
Definition ends (gbd : bytes -> option bytes) (p : proto) (cmd : Z) (body : bytes) (err : bool) : Prop :=
  let bye := match p with P_SMGP => 6 | _ => 2 end in
  cmd = bye \/ cmd = 2 ^ 31 + bye \/
  err = true /\ In cmd (match p with P_CMPP => [5; 8] | P_SGIP => [] | P_SMGP => [3; 4] end) \/
  p = P_SMGP /\ cmd = 3 /\ unreadable gbd body = true.

(** ** The answers on the wire *)
Lemma eight m : exists a b c d e f g h, be 8 m = [a; b; c; d; e; f; g; h].
Proof. repeat eexists. Qed.
Lemma four m : exists a b c d, be 4 m = [a; b; c; d].
Proof. repeat eexists. Qed.
Ltac hide4 x := let E := fresh in destruct (four x) as (? & ? & ? & ? & E); rewrite E.
Ltac hide8 x := let E := fresh in destruct (eight x) as (? & ? & ? & ? & ? & ? & ? & ? & E); rewrite E.
Lemma x_active q : ActiveTestRsp_Encode (CHead 13 (RESP + ACTIVE_TEST) q) = Ok (wire_of (2 ^ 31 + 8) q [0]).
Proof. unfold ActiveTestRsp_Encode, head_Encode, put_be, wire_of. cbn [h_seq h_len h_cmd]. hide4 q. vm_compute. reflexivity. Qed.
Lemma x_head c q : head_Encode (CHead 12 c q) = Ok (wire_of c q []).
Proof. unfold head_Encode, put_be, wire_of. cbn [h_seq h_len h_cmd]. hide4 q. hide4 c. vm_compute. reflexivity. Qed.
Lemma x_smhead c q : smhead_Encode (CHead 12 c q) = Ok (wire_of c q []).
Proof. unfold smhead_Encode, put_be, wire_of. cbn [h_seq h_len h_cmd]. hide4 q. hide4 c. vm_compute. reflexivity. Qed.
Lemma x_shead c x y z : shead_Encode (SHead 20 c (x, y, z)) = Ok (wire_of c x (be 4 y ++ be 4 z)).
Proof. unfold shead_Encode, put_be, wire_of. cbn [sh_seq sh_len sh_cmd]. hide4 c. hide4 x. hide4 y. hide4 z. vm_compute. reflexivity. Qed.
Lemma x_cresp q m v : cresp_Encode (CResp (CHead (if is_v3 v then 24 else 21) (RESP + DELIVER) q) m 0 v) = Ok (wire_of (2 ^ 31 + 5) q (be 8 m ++ if is_v3 v then [0; 0; 0; 0] else [0])).
Proof. unfold cresp_Encode, head_Encode, put_be, wire_of. cbn [rs_h rs_msgId rs_result rs_version h_seq h_len h_cmd]. hide4 q. hide8 m. destruct (is_v3 v); vm_compute; reflexivity. Qed.
Lemma x_mresp q id v : zlen id = 10 -> mresp_Encode (MResp (CHead 26 (RESP + SM_DELIVER) q) id 0 v) = Ok (wire_of (2 ^ 31 + 3) q (id ++ [0; 0; 0; 0])).
Proof.
  intros L. unfold mresp_Encode, smhead_Encode, put_be, wire_of. cbn [mr_h mr_msgId mr_status h_seq h_len h_cmd]. hide4 q.
  do 10 (destruct id as [|? id]; [discriminate L|]). destruct id; [|unfold zlen in L; cbn [length] in L; lia]. vm_compute. reflexivity.
Qed.
Lemma get_first n f v : bytes_ok f -> get_be n f 0 (Z.of_nat n) = Ok v -> be n v = firstn n f.
Proof.
  intros B H. assert (LE : (n <= length f)%nat).
  { unfold get_be in H. apply bind_ok in H as (x & X & _). assert (X1 : exists s, slice f 0 (Z.of_nat n) = Ok s) by eauto. apply slice_ok_iff in X1. unfold zlen, bytes in *. lia. }
  apply get_be_val in H; [|lia]. subst v. change (Z.to_nat 0) with 0%nat. rewrite skipn_O. rewrite <- (firstn_length_le f LE) at 1. apply be_unbe.
  unfold bytes_ok in *. rewrite Forall_forall in *. intros x X. apply B. rewrite <- (firstn_skipn n f). apply in_app_iff. left. exact X.
Qed.
Lemma deliver_seen v q f d : bytes_ok f -> Delivery_Decode v q f = Ok d -> Delivery_ToResponse d 0 = CResp (CHead (if is_v3 v then 24 else 21) (RESP + DELIVER) q) (dl_msgId d) 0 v /\ be 8 (dl_msgId d) = firstn 8 f.
Proof.
  intros B H. unfold Delivery_Decode in H. cbv zeta in H. apply bind_ok in H as (m & M & H). apply (get_first 8) in M; [|exact B]. do 5 (apply bind_ok in H as (? & _ & H)).
  apply bind_ok in H as ([[si st] ix] & _ & H). do 3 (apply bind_ok in H as (? & _ & H)). apply bind_ok in H as ([co re] & _ & H). apply bind_ok in H as (? & _ & H). injection H as <-. split; [reflexivity|exact M].
Qed.
Lemma at_nth f i x : at_ f i = Ok x -> nth (Z.to_nat i) f 0 = x.
Proof. intros H. apply at_byte in H. destruct H as [_ H]. apply nth_error_nth. exact H. Qed.
Lemma mdeliver_seen gbd v q f : (forall d, MDeliver_Decode gbd v q f = Ok d -> unreadable gbd f = false /\ md_h d = CHead (12 + zlen f) SM_DELIVER q) /\ (forall k, MDeliver_Decode gbd v q f = Err k -> unreadable gbd f = true).
Proof.
  assert (G : forall r : res mdeliver, MDeliver_Decode gbd v q f = r -> match r with Ok d => unreadable gbd f = false /\ md_h d = CHead (12 + zlen f) SM_DELIVER q | Err _ => unreadable gbd f = true | Panic => True end).
  2: { split; intros x X; exact (G _ X). }
  intros r H. unfold MDeliver_Decode in H. unfold unreadable.
  repeat match type of H with bind (slice ?a ?b ?c) _ = _ => let E := fresh "E" in destruct (slice a b c) eqn:E; cbn [bind] in H; [|subst r; exfalso; exact (slice_noerr _ _ _ _ E)|subst r; exact I]
         | bind (at_ ?a ?b) _ = _ => let E := fresh "E" in destruct (at_ a b) eqn:E; cbn [bind] in H; [|subst r; exfalso; exact (at_noerr _ _ _ E)|subst r; exact I] end.
  match type of E0 with _ = Ok ?x => rename x into rd end. match type of E5 with _ = Ok ?x => rename x into ml end.
  apply at_nth in E0, E5. change (Z.to_nat 10) with 10%nat in E0. change (Z.to_nat 68) with 68%nat in E5. rewrite E0, E5. destruct (rd =? 1) eqn:R1; cbn [negb andb].
  - destruct (bind (slice f 69 (69 + RptLen)) _) as [[c rp]|k|] eqn:E6; cbn [bind] in H; subst r; [split; reflexivity| |exact I]. exfalso. revert E6. apply bind_noerr; [apply slice_noerr|]. intros b. apply bind_noerr; [|discriminate].
    unfold mreport_Decode. repeat (apply bind_noerr; [apply slice_noerr|intros ?]). discriminate.
  - destruct (slice f 69 (69 + ml)) as [b|k|] eqn:E6; cbn [bind] in H; [|subst r; exfalso; exact (slice_noerr _ _ _ _ E6)|subst r; exact I].
    apply slice_val in E6. replace (69 + ml - 69) with ml in E6 by lia. change (Z.to_nat 69) with 69%nat in E6. rewrite <- E6. destruct (gbd b); cbn [bind] in H; subst r; [split; reflexivity|reflexivity].
Qed.

(** ** One packet *)
Definition open_sess (s : csess) (a : authconf) : Prop := connected s a /\ cs_stat s <> CClosing.
Lemma close_open s a : open_sess s a -> exists s1, Close s = Ok s1 /\ closed s1.
Proof. intros [[C _] N]. unfold Close. rewrite C. destruct (cs_stat s); [| |congruence]; eexists; (split; [reflexivity|split; [reflexivity|split; reflexivity]]). Qed.
Ltac noend := right; split; [unfold ends; change (2 ^ 31 + 2) with 2147483650; change (2 ^ 31 + 6) with 2147483654; cbn [In];
  intros X; repeat match type of X with _ \/ _ => destruct X as [X|X] end; repeat match goal with Y : _ /\ _ |- _ => destruct Y end; (congruence || lia || idtac)|].
Ltac idle H := injection H as <- <- <-; split; [try match goal with |- _ = if ?b then _ else _ => destruct b end; reflexivity|noend; try reflexivity].
Lemma handler_acks gbd s ca cmd seq body o a s1 ca1 out : open_sess s a -> bytes_ok body -> zlen (g_id o) = 10 -> c_onTraffic gbd s ca cmd seq body o = Ok (s1, ca1, out) ->
  out = (if g_err o then [] else sent_ack gbd (cs_p s) (version_three a) cmd seq body (g_id o)) /\
  (ends gbd (cs_p s) cmd body (g_err o) /\ closed s1 \/ ~ ends gbd (cs_p s) cmd body (g_err o) /\ s1 = touch s (g_now o)).
Proof.
  intros O B LI H. unfold c_onTraffic in H. assert (O0 : open_sess (touch s (g_now o)) a) by exact O. destruct (close_open _ _ O0) as (sc & CL & SC). destruct O as [[C A] NS].
  assert (V : version_of (touch s (g_now o)) = Ok (ac_Version a)) by (unfold version_of, touch; cbn [cs_ac]; rewrite A; reflexivity). assert (CN : cs_con (touch s (g_now o)) = true) by exact C.
  unfold version_three. destruct (cs_p s).
  - unfold onTrafficCmpp in H. cbv zeta in H. set (s0 := touch s (g_now o)) in *. clearbody s0.
    change (RESP + CONNECT) with 2147483649 in H. change ACTIVE_TEST with 8 in H. change TERMINATE with 2 in H. change (RESP + SUBMIT) with 2147483652 in H. change DELIVER with 5 in H. change (RESP + 8) with 2147483656 in H. change (RESP + 2) with 2147483650 in H.
    destruct (cmd =? 2147483649) eqn:E1; [apply Z.eqb_eq in E1; subst cmd|].
    { rewrite V in H. cbn [bind] in H. apply bind_ok in H as (r & _ & H). destruct (cr_status r =? 0); [|discriminate H]. idle H. }
    destruct (cmd =? 8) eqn:E2; [apply Z.eqb_eq in E2; subst cmd|].
    { unfold ActiveTest_Decode in H. cbn [bind] in H. unfold ActiveTest_ToResponse in H. cbn [h_seq] in H. rewrite x_active in H. unfold answer_or_close, reply_with in H. cbn [bind] in H. rewrite CN in H. cbn [bind] in H.
      destruct (g_err o).
      - unfold ClientModel.closing in H. rewrite CL in H. cbn [bind] in H. injection H as <- <- <-. split; [reflexivity|]. left. split; [|exact SC]. right. right. left. split; [reflexivity|cbn; tauto].
      - idle H. }
    destruct (cmd =? 2147483656) eqn:E3; [apply Z.eqb_eq in E3; subst cmd; idle H|].
    destruct (cmd =? 2) eqn:E4; [apply Z.eqb_eq in E4; subst cmd|].
    { unfold Terminate_Decode in H. cbn [bind] in H. unfold Terminate_ToResponse in H. cbn [h_seq] in H. change TERMINATE with 2 in H. rewrite x_head in H. unfold reply_with in H. cbn [bind] in H. rewrite CN in H. cbn [bind] in H.
      unfold ClientModel.closing in H. rewrite CL in H. cbn [bind] in H. injection H as <- <- <-. split; [destruct (g_err o); reflexivity|]. left. split; [left; reflexivity|exact SC]. }
    destruct (cmd =? 2147483650) eqn:E5; [apply Z.eqb_eq in E5; subst cmd|].
    { unfold ClientModel.closing in H. rewrite CL in H. cbn [bind] in H. injection H as <- <- <-. split; [destruct (g_err o); reflexivity|]. left. split; [right; left; reflexivity|exact SC]. }
    destruct (cmd =? 2147483652) eqn:E6; [apply Z.eqb_eq in E6; subst cmd|].
    { rewrite V in H. cbn [bind] in H. apply bind_ok in H as (r & _ & H). idle H. }
    destruct (cmd =? 5) eqn:E7; [apply Z.eqb_eq in E7; subst cmd|].
    { rewrite V in H. cbn [bind] in H. apply bind_ok in H as (d & D & H). destruct (deliver_seen _ _ _ _ B D) as [DR DI]. rewrite DR, x_cresp, DI in H. unfold reply_with in H. cbn [bind] in H. rewrite CN in H. cbn [bind] in H.
      destruct (g_err o).
      - rewrite CL in H. cbn [bind] in H. injection H as <- <- <-. split; [reflexivity|]. left. split; [|exact SC]. right. right. left. split; [reflexivity|cbn; tauto].
      - cbn [bind] in H. idle H. }
    injection H as <- <- <-. split; [|noend; reflexivity]. unfold sent_ack, due_ack. rewrite E7, E2, E4. destruct (g_err o); reflexivity.
  - unfold onTrafficSgip in H. cbv zeta in H. set (s0 := touch s (g_now o)) in *. clearbody s0.
    change (RESP + SG_BIND) with 2147483649 in H. change (RESP + SG_UNBIND) with 2147483650 in H. change SG_UNBIND with 2 in H. change (RESP + SG_SUBMIT) with 2147483651 in H.
    destruct (cmd =? 2147483649) eqn:E1; [apply Z.eqb_eq in E1; subst cmd|].
    { apply bind_ok in H as (r & _ & H). destruct (sr_status r =? 0); [|discriminate H]. idle H. }
    destruct (cmd =? 2) eqn:E2; [apply Z.eqb_eq in E2; subst cmd|].
    { apply bind_ok in H as (h & D & H). unfold Unbind_Decode in D. apply bind_ok in D as (x & X & D). apply bind_ok in D as (y & Y & D). injection D as <-. unfold Unbind_ToResponse in H. cbn [sh_len sh_seq] in H. rewrite x_shead in H.
      assert (XY : be 4 x ++ be 4 y = firstn 8 body).
      { pose proof (be_slice body 0 4 4 x B X eq_refl) as U1. pose proof (be_slice body 4 8 4 y B Y eq_refl) as U2. apply slice_val in U1, U2. change (Z.to_nat (4 - 0)) with 4%nat in U1. change (Z.to_nat (8 - 4)) with 4%nat in U2. change (Z.to_nat 0) with 0%nat in U1. change (Z.to_nat 4) with 4%nat in U2.
        rewrite U1, U2, skipn_O, (firstn_skipn_comm 4 4 body). change (4 + 4)%nat with 8%nat. rewrite <- (firstn_skipn 4 (firstn 8 body)) at 2. rewrite firstn_firstn. reflexivity. }
      rewrite XY in H. unfold reply_with in H. cbn [bind] in H. rewrite CN in H. cbn [bind] in H.
      unfold ClientModel.closing in H. rewrite CL in H. cbn [bind] in H. injection H as <- <- <-. split; [destruct (g_err o); reflexivity|]. left. split; [left; reflexivity|exact SC]. }
    destruct (cmd =? 2147483650) eqn:E5; [apply Z.eqb_eq in E5; subst cmd|].
    { apply bind_ok in H as (h & _ & H). unfold ClientModel.closing in H. rewrite CL in H. cbn [bind] in H. injection H as <- <- <-. split; [destruct (g_err o); reflexivity|]. left. split; [right; left; reflexivity|exact SC]. }
    destruct (cmd =? 2147483651) eqn:E6; [apply Z.eqb_eq in E6; subst cmd|].
    { apply bind_ok in H as (r & _ & H). idle H. }
    injection H as <- <- <-. split; [|noend; reflexivity]. unfold sent_ack, due_ack. rewrite E2. destruct (g_err o), (cmd =? 4), (cmd =? 5); reflexivity.
  - unfold onTrafficSmgp in H. cbv zeta in H. set (s0 := touch s (g_now o)) in *. clearbody s0.
    change (RESP + SM_LOGIN) with 2147483649 in H. change SM_ACTIVE_TEST with 4 in H. change SM_EXIT with 6 in H. change (RESP + SM_SUBMIT) with 2147483650 in H. change SM_DELIVER with 3 in H. change (RESP + 4) with 2147483652 in H. change (RESP + 6) with 2147483654 in H.
    destruct (cmd =? 2147483649) eqn:E1; [apply Z.eqb_eq in E1; subst cmd|].
    { rewrite V in H. cbn [bind] in H. apply bind_ok in H as (r & _ & H). destruct (lr_status r =? 0); [|discriminate H]. idle H. }
    destruct (cmd =? 4) eqn:E2; [apply Z.eqb_eq in E2; subst cmd|].
    { unfold sm_bare_Decode in H. cbn [bind] in H. unfold sm_bare_ToResponse in H. cbn [h_seq h_len] in H. rewrite x_smhead in H. unfold answer_or_close, reply_with in H. cbn [bind] in H. rewrite CN in H. cbn [bind] in H.
      destruct (g_err o).
      - unfold ClientModel.closing in H. rewrite CL in H. cbn [bind] in H. injection H as <- <- <-. split; [reflexivity|]. left. split; [|exact SC]. right. right. left. split; [reflexivity|cbn; tauto].
      - idle H. }
    destruct (cmd =? 2147483652) eqn:E3; [apply Z.eqb_eq in E3; subst cmd; idle H|].
    destruct (cmd =? 6) eqn:E4; [apply Z.eqb_eq in E4; subst cmd|].
    { unfold sm_bare_Decode in H. cbn [bind] in H. unfold sm_bare_ToResponse in H. cbn [h_seq h_len] in H. rewrite x_smhead in H. unfold reply_with in H. cbn [bind] in H. rewrite CN in H. cbn [bind] in H.
      unfold ClientModel.closing in H. rewrite CL in H. cbn [bind] in H. injection H as <- <- <-. split; [destruct (g_err o); reflexivity|]. left. split; [left; reflexivity|exact SC]. }
    destruct (cmd =? 2147483654) eqn:E5; [apply Z.eqb_eq in E5; subst cmd|].
    { unfold ClientModel.closing in H. rewrite CL in H. cbn [bind] in H. injection H as <- <- <-. split; [destruct (g_err o); reflexivity|]. left. split; [right; left; reflexivity|exact SC]. }
    destruct (cmd =? 2147483650) eqn:E6; [apply Z.eqb_eq in E6; subst cmd|].
    { rewrite V in H. cbn [bind] in H. apply bind_ok in H as (r & _ & H). idle H. }
    destruct (cmd =? 3) eqn:E7; [apply Z.eqb_eq in E7; subst cmd|].
    { rewrite V in H. cbn [bind] in H. destruct (mdeliver_seen gbd (ac_Version a) seq body) as [MO ME]. destruct (MDeliver_Decode gbd (ac_Version a) seq body) as [d|k|]; [| |discriminate H].
      - destruct (MO d eq_refl) as [UR MH]. unfold MDeliver_ToResponse in H. rewrite MH in H. cbn [h_seq] in H. rewrite x_mresp in H by exact LI. unfold reply_with in H. cbn [bind] in H. rewrite CN in H. cbn [bind] in H.
        destruct (g_err o).
        + rewrite CL in H. cbn [bind] in H. injection H as <- <- <-. split; [reflexivity|]. left. split; [|exact SC]. right. right. left. split; [reflexivity|cbn; tauto].
        + cbn [bind] in H. injection H as <- <- <-. split; [unfold sent_ack; rewrite UR; reflexivity|noend; reflexivity].
      - pose proof (ME k eq_refl) as UR. unfold ClientModel.closing in H. rewrite CL in H. cbn [bind] in H. injection H as <- <- <-. split; [unfold sent_ack; rewrite UR; destruct (g_err o); reflexivity|]. left. split; [|exact SC]. right. right. right. auto. }
    injection H as <- <- <-. split; [|noend; reflexivity]. unfold sent_ack, due_ack. rewrite E7, E2, E4. destruct (g_err o); reflexivity.
Qed.
(** A closed session: packets that would be answered end the process, the others change nothing. *)
Lemma handler_closed gbd s ca cmd seq body o s1 ca1 out : closed s -> c_onTraffic gbd s ca cmd seq body o = Ok (s1, ca1, out) -> out = [] /\ s1 = touch s (g_now o).
Proof.
  intros (ST & C & A) H. unfold c_onTraffic in H. assert (CL : Close (touch s (g_now o)) = Ok (touch s (g_now o))) by (unfold Close, touch; cbn [cs_stat]; rewrite ST; reflexivity).
  assert (V : version_of (touch s (g_now o)) = Panic) by (unfold version_of, touch; cbn [cs_ac]; rewrite A; reflexivity). assert (CN : cs_con (touch s (g_now o)) = false) by exact C.
  assert (RW : forall e, reply_with (touch s (g_now o)) e = Ok [] -> False) by (intros e; unfold reply_with; rewrite CN; destruct e; discriminate).
  assert (RQ : forall e b, reply_with (touch s (g_now o)) e = Ok b -> False) by (intros e b; unfold reply_with; rewrite CN; destruct e; discriminate).
  destruct (cs_p s); unfold onTrafficCmpp, onTrafficSgip, onTrafficSmgp in H; cbv zeta in H; set (s0 := touch s (g_now o)) in *; clearbody s0;
    repeat match type of H with (if ?b then _ else _) = Ok _ => destruct b end; unfold nothing, ClientModel.closing, answer_or_close in H; rewrite ?V, ?CL in H; cbn [bind] in H; try discriminate H;
    repeat match type of H with bind _ _ = Ok _ => let b := fresh in let X := fresh in apply bind_ok in H as (b & X & H); try (exfalso; exact (RQ _ _ X)) | (if ?b then _ else _) = Ok _ => destruct b end; try discriminate H;
    injection H as <- <- <-; split; reflexivity.
Qed.

(** ** One step of the client *)
(** A session keeps its protocol; a closed one stays closed; an open one keeps its account or closes. *)
Definition evolves (s s1 : csess) : Prop := cs_p s1 = cs_p s /\ (closed s -> closed s1) /\ forall a, open_sess s a -> open_sess s1 a \/ closed s1.
Lemma ev_refl s : evolves s s.
Proof. split; [reflexivity|]. auto. Qed.
Lemma ev_trans s1 s2 s3 : evolves s1 s2 -> evolves s2 s3 -> evolves s1 s3.
Proof. intros (A & B & C) (D & E & F). split; [congruence|]. split; [auto|]. intros a O. destruct (C a O) as [X|X]; [exact (F a X)|right; auto]. Qed.
Lemma ev_close s s1 : sess_ok s -> Close s = Ok s1 -> evolves s s1.
Proof.
  intros K H. unfold Close in H. destruct (cs_stat s) eqn:ST; [| |injection H as <-; apply ev_refl].
  all: destruct (cs_con s) eqn:C; [injection H as <-|discriminate H]; split; [reflexivity|]; split; [intros (X & _); congruence|]; intros a O; right; split; [reflexivity|split; reflexivity].
Qed.
Lemma ev_put l i s s1 : nth_error l i = Some s -> evolves s s1 -> Forall2 evolves l (firstn i l ++ [s1] ++ skipn (S i) l).
Proof.
  revert i. induction l as [|x l IH]; intros i N E; [destruct i; discriminate N|]. destruct i as [|i]; cbn in N; cbn [firstn skipn app].
  - injection N as ->. constructor; [exact E|]. clear. induction l; constructor; [apply ev_refl|assumption].
  - constructor; [apply ev_refl|]. apply IH; assumption.
Qed.
Lemma ev_all_refl l : Forall2 evolves l l.
Proof. induction l; constructor; [apply ev_refl|assumption]. Qed.
Lemma ev_all_trans l1 : forall l2 l3, Forall2 evolves l1 l2 -> Forall2 evolves l2 l3 -> Forall2 evolves l1 l3.
Proof. induction l1 as [|x l1 IH]; intros l2 l3 A B; inversion A; subst; inversion B; subst; constructor; [eapply ev_trans; eassumption|eapply IH; eassumption]. Qed.
Lemma ev_used c i now : Forall2 evolves (ct_sess c) (ct_sess (used c i now)).
Proof.
  unfold used. destruct (nth_error (ct_sess c) i) as [s|] eqn:N; [|apply ev_all_refl]. cbn [put_sess ct_sess]. apply (ev_put _ _ s); [exact N|].
  split; [reflexivity|]. split; [intros X; exact X|]. intros a X. left. exact X.
Qed.
Lemma used_log c i now : ct_log (used c i now) = ct_log c.
Proof. unfold used. destruct (nth_error (ct_sess c) i); reflexivity. Qed.
Definition other (o : cobs) : Prop := match o with OGotP _ _ _ _ _ | OReply _ _ => False | _ => True end.
Lemma step_ack pr c e c1 : Forall sess_ok (ct_sess c) -> cstep pr c e = Ok c1 ->
  (exists l, ct_log c1 = ct_log c ++ l /\ Forall other l /\ Forall2 evolves (ct_sess c) (ct_sess c1)) \/
  exists i cmd seq body o ss s1 ca1 out, e = CGot i cmd seq body o /\ nth_error (ct_sess c) i = Some ss /\ c_onTraffic (cp_gbd pr) ss (ct_ca c) cmd seq body o = Ok (s1, ca1, out) /\
    ct_log c1 = ct_log c ++ OGotP i (cs_p ss) cmd seq body :: map (OReply i) out /\ ct_sess c1 = firstn i (ct_sess c) ++ [s1] ++ skipn (S i) (ct_sess c) /\ ct_send c1 = ct_send c.
Proof.
  intros F H. assert (AT : forall i ss, nth_error (ct_sess c) i = Some ss -> sess_ok ss) by (rewrite Forall_forall in F; intros i ss N; exact (F ss (nth_error_In _ _ N))).
  assert (SAME : c1 = c -> exists l, ct_log c1 = ct_log c ++ l /\ Forall other l /\ Forall2 evolves (ct_sess c) (ct_sess c1)) by (intros ->; exists []; rewrite app_nil_r; split; [reflexivity|split; [constructor|apply ev_all_refl]]).
  destruct e as [q msg ops phones|t choice d now|t ok now|t now|t|i cmd seq body o|i|h d now|d now|d now]; cbn [cstep] in H.
  - left. destruct phones; injection H as <-; cbn [say ct_log ct_sess]; [exists [ORet 0]|exists []; rewrite app_nil_r]; (split; [reflexivity|split; [repeat constructor|apply ev_all_refl]]).
  - left. destruct (nth_error (ct_send c) t) as [s|]; [|injection H as <-; auto]. destruct (sn_ph s); try (injection H as <-; auto; fail). destruct (sn_todo s) as [|phone rest]; [injection H as <-; auto|].
    destruct choice as [i|]; [|injection H as <-; exists [OPick t phone]; split; [reflexivity|split; [repeat constructor|apply ev_all_refl]]]. destruct (nth_error (ct_sess c) i) as [ss|]; [|injection H as <-; auto]. destruct (HealthCheck ss); [|injection H as <-; auto].
    destruct (cs_ac ss); [|injection H as <-; auto]. apply bind_ok in H as (parts & _ & H). destruct parts; injection H as <-; exists [OPick t phone]; cbn [say ct_log ct_sess]; rewrite ?used_log; (split; [reflexivity|split; [repeat constructor|]]).
    + exact (ev_used (put_send c t _) i now).
    + apply ev_all_refl.
  - left. destruct (nth_error (ct_send c) t) as [s|]; [|injection H as <-; auto]. destruct (sn_ph s) as [|i phone parts done|i phone b key parts done|]; try (injection H as <-; auto; fail). destruct parts as [|[enc key] r]; [injection H as <-; auto|].
    destruct (nth_error (ct_sess c) i) as [ss|] eqn:NS; [|injection H as <-; auto]. apply bind_ok in H as (b & B & H). destruct ok; [injection H as <-; exists [OWrote t i b]; split; [reflexivity|split; [repeat constructor|apply ev_all_refl]]|].
    apply bind_ok in H as (s1 & CL & H). injection H as <-. exists [OBroke t i]. cbn [say ct_log ct_sess]. rewrite used_log. split; [reflexivity|]. split; [repeat constructor|].
    eapply ev_all_trans; [|apply ev_used]. cbn [put_send put_sess ct_sess]. apply (ev_put _ _ ss); [exact NS|]. exact (ev_close _ _ (AT _ _ NS) CL).
  - left. destruct (nth_error (ct_send c) t) as [s|]; [|injection H as <-; auto]. destruct (sn_ph s) as [|i phone parts done|i phone b key r done|]; try (injection H as <-; auto; fail). cbv zeta in H.
    destruct r; injection H as <-; (eexists; split; [rewrite ?used_log; reflexivity|split; [repeat constructor|]]); [|apply ev_all_refl].
    match goal with |- Forall2 evolves _ (ct_sess (used ?x _ _)) => exact (ev_used x i now) end.
  - left. destruct (nth_error (ct_send c) t) as [s|]; [|injection H as <-; auto]. destruct (sn_ph s); try (injection H as <-; auto; fail). destruct (sn_todo s); injection H as <-; auto.
    eexists. split; [reflexivity|]. split; [repeat constructor|apply ev_all_refl].
  - destruct (nth_error (ct_sess c) i) as [ss|] eqn:NS; [|left; injection H as <-; auto]. apply bind_ok in H as ([[s1 ca] out] & G & H). injection H as <-. right. exists i, cmd, seq, body, o, ss, s1, ca, out. auto 7.
  - left. destruct (nth_error (ct_sess c) i) as [ss|] eqn:NS; [|injection H as <-; auto]. apply bind_ok in H as (s1 & CL & H). injection H as <-. exists []. cbn [put_sess ct_log ct_sess]. rewrite app_nil_r. split; [reflexivity|]. split; [constructor|].
    apply (ev_put _ _ ss); [exact NS|]. exact (ev_close _ _ (AT _ _ NS) CL).
  - left. injection H as <-. exists []. rewrite app_nil_r. split; [reflexivity|split; [constructor|apply ev_all_refl]].
  - left. injection H as <-. exists []. rewrite app_nil_r. split; [reflexivity|split; [constructor|apply ev_all_refl]].
  - left. injection H as <-. exists []. rewrite app_nil_r. split; [reflexivity|split; [constructor|apply ev_all_refl]].
Qed.
(** Sessions that are open (with the account [a]) or closed, protocols as at the start. *)
Definition since (s0 s : csess) : Prop := cs_p s = cs_p s0 /\ ((exists a, cs_ac s0 = Some a /\ open_sess s a) \/ closed s).

(** One packet received by an open session: exactly the answer of [sent_ack] is written, to that
    session, unless writing fails; the session is closed exactly in the cases of [ends], otherwise
    only its time of last activity changes; other sessions and sending tasks are untouched. *)
Theorem C106_step_partial : forall pr c i ss a cmd seq body o c1, nth_error (ct_sess c) i = Some ss -> open_sess ss a -> bytes_ok body -> zlen (g_id o) = 10 ->
  cstep pr c (CGot i cmd seq body o) = Ok c1 ->
  exists s1, nth_error (ct_sess c1) i = Some s1 /\ (forall j, j <> i -> nth_error (ct_sess c1) j = nth_error (ct_sess c) j) /\ ct_send c1 = ct_send c /\
    ct_log c1 = ct_log c ++ OGotP i (cs_p ss) cmd seq body :: map (OReply i) (if g_err o then [] else sent_ack (cp_gbd pr) (cs_p ss) (version_three a) cmd seq body (g_id o)) /\
    (ends (cp_gbd pr) (cs_p ss) cmd body (g_err o) /\ closed s1 \/
     ~ ends (cp_gbd pr) (cs_p ss) cmd body (g_err o) /\ s1 = CSess (cs_p ss) (cs_stat ss) true (Some a) (cs_pcnt ss) (g_now o)).
Proof.
  intros pr c i ss a cmd seq body o c1 N O B LI H. cbn [cstep] in H. rewrite N in H. apply bind_ok in H as ([[s1 ca] out] & G & H). injection H as <-. cbn [say put_ca put_sess ct_sess ct_log ct_send].
  destruct (handler_acks _ _ _ _ _ _ _ _ _ _ _ O B LI G) as [-> E]. assert (LI2 : (i < length (ct_sess c))%nat) by (apply nth_error_Some; congruence). exists s1.
  split; [rewrite nth_error_app2; rewrite firstn_length_le by lia; [rewrite Nat.sub_diag; reflexivity|lia]|]. split; [|split; [reflexivity|split; [reflexivity|]]].
  - intros j J. destruct (Nat.lt_ge_cases j i) as [L|L].
    + rewrite nth_error_app1 by (rewrite firstn_length_le; lia). rewrite <- (firstn_skipn i (ct_sess c)) at 2. rewrite nth_error_app1 by (rewrite firstn_length_le; lia). reflexivity.
    + rewrite nth_error_app2 by (rewrite firstn_length_le; lia). rewrite firstn_length_le by lia. destruct (j - i)%nat as [|k] eqn:JK; [lia|]. cbn [app nth_error].
      rewrite <- (firstn_skipn (S i) (ct_sess c)) at 2. rewrite nth_error_app2 by (rewrite firstn_length_le; lia). rewrite firstn_length_le by lia. f_equal. lia.
  - destruct E as [[E X]|[E X]]; [left; auto|right; split; [exact E|]]. rewrite X. unfold touch. destruct O as [[-> ->] _]. reflexivity.
Qed.

(** ** Whole runs *)
(** What the log of a run consists of: entries that concern no received packet, and received packets
    each directly followed by the answers written for it: those of [sent_ack], or none if the session
    is closed at the end ([over]). *)
Definition block (gbd : bytes -> option bytes) (sessions : list csess) (over : nat -> Prop) (b : list cobs) : Prop :=
  Forall other b \/
  exists i s0 a cmd seq body out, b = OGotP i (cs_p s0) cmd seq body :: map (OReply i) out /\ nth_error sessions i = Some s0 /\ cs_ac s0 = Some a /\
    (out = [] /\ over i \/ exists id, zlen id = 10 /\ out = sent_ack gbd (cs_p s0) (version_three a) cmd seq body id).
Definition is_over (c : cstate) (i : nat) : Prop := exists s, nth_error (ct_sess c) i = Some s /\ closed s.
Definition proper (e : cevent) : Prop := match e with CGot _ _ _ body o => bytes_ok body /\ zlen (g_id o) = 10 | _ => True end.
Lemma block_impl gbd ss (P Q : nat -> Prop) b : (forall i, P i -> Q i) -> block gbd ss P b -> block gbd ss Q b.
Proof. intros H [X|(i & s0 & a & cmd & seq & body & out & X)]; [left; exact X|right]. exists i, s0, a, cmd, seq, body, out. intuition. Qed.
Lemma F2_nth {A B} (R : A -> B -> Prop) l1 : forall l2 i x, Forall2 R l1 l2 -> nth_error l1 i = Some x -> exists y, nth_error l2 i = Some y /\ R x y.
Proof. induction l1 as [|z l1 IH]; intros l2 i x F N; [destruct i; discriminate N|]. inversion F; subst. destruct i; cbn in *; [injection N as ->; eauto|]. eapply IH; eassumption. Qed.
Lemma F2_nth_r {A B} (R : A -> B -> Prop) l1 : forall l2 i y, Forall2 R l1 l2 -> nth_error l2 i = Some y -> exists x, nth_error l1 i = Some x /\ R x y.
Proof. induction l1 as [|z l1 IH]; intros l2 i y F N; inversion F; subst; [destruct i; discriminate N|]. destruct i; cbn in *; [injection N as ->; eauto|]. eapply IH; eassumption. Qed.
Lemma since_ev s0 s s1 : since s0 s -> evolves s s1 -> since s0 s1.
Proof. intros (P & K) (A & B & C). split; [congruence|]. destruct K as [(a & X & Y)|K]; [destruct (C a Y) as [Z|Z]; [left; eauto|right; exact Z]|right; auto]. Qed.
Lemma since_evs l0 : forall l l1, Forall2 since l0 l -> Forall2 evolves l l1 -> Forall2 since l0 l1.
Proof. induction l0 as [|x l0 IH]; intros l l1 A B; inversion A; subst; inversion B; subst; constructor; [eapply since_ev; eassumption|eapply IH; eassumption]. Qed.
Lemma since_ok l0 l : Forall2 since l0 l -> Forall sess_ok l.
Proof. induction 1 as [|x y l0 l (P & K) _ IH]; constructor; [|exact IH]. destruct K as [(a & _ & X & _)|K]; [left; eauto|right; exact K]. Qed.
Lemma over_ev c c1 i : Forall2 evolves (ct_sess c) (ct_sess c1) -> is_over c i -> is_over c1 i.
Proof. intros F (s & N & K). destruct (F2_nth _ _ _ _ _ F N) as (s1 & N1 & _ & E & _). exists s1. auto. Qed.
Lemma got_ev gbd s ca cmd seq body o s1 ca1 out s0 : since s0 s -> bytes_ok body -> zlen (g_id o) = 10 -> c_onTraffic gbd s ca cmd seq body o = Ok (s1, ca1, out) -> evolves s s1.
Proof.
  intros (P & K) B LI G. destruct K as [(a & X & O)|K].
  - destruct (handler_acks _ _ _ _ _ _ _ _ _ _ _ O B LI G) as [_ [[_ E]|[_ ->]]].
    + split; [exact (proj1 (handler_eff _ _ _ _ _ _ _ _ _ _ G))|]. split; [auto|]. intros a1 _. right. exact E.
    + split; [reflexivity|]. split; [intros Y; exact Y|]. intros a1 Y. left. exact Y.
  - destruct (handler_closed _ _ _ _ _ _ _ _ _ _ K G) as [_ ->]. split; [reflexivity|]. split; [intros Y; exact Y|]. intros a1 Y. left. exact Y.
Qed.
Lemma failed_ends gbd p three cmd seq body id : ~ ends gbd p cmd body true -> sent_ack gbd p three cmd seq body id = [].
Proof.
  intros N. unfold ends in N. destruct p; cbv zeta in N; cbn [In] in N; unfold sent_ack, due_ack.
  - destruct (cmd =? 5) eqn:E1; [exfalso; apply N; right; right; left; split; [reflexivity|lia]|]. destruct (cmd =? 8) eqn:E2; [exfalso; apply N; right; right; left; split; [reflexivity|lia]|]. destruct (cmd =? 2) eqn:E3; [exfalso; apply N; left; lia|reflexivity].
  - destruct ((cmd =? 4) || (cmd =? 5)); [reflexivity|]. destruct (cmd =? 2) eqn:E3; [exfalso; apply N; left; lia|reflexivity].
  - destruct (cmd =? 3) eqn:E1; [exfalso; apply N; right; right; left; split; [reflexivity|lia]|]. destruct (cmd =? 4) eqn:E2; [exfalso; apply N; right; right; left; split; [reflexivity|lia]|]. destruct (cmd =? 6) eqn:E3; [exfalso; apply N; left; lia|reflexivity].
Qed.
Definition acked (pr : cparams) (sessions : list csess) (c : cstate) : Prop :=
  Forall2 since sessions (ct_sess c) /\ exists bs, ct_log c = concat bs /\ Forall (block (cp_gbd pr) sessions (is_over c)) bs.
Lemma acked_step pr sessions c e c1 : Forall (fun s => exists a, open_sess s a) sessions -> acked pr sessions c -> proper e -> cstep pr c e = Ok c1 -> acked pr sessions c1.
Proof.
  intros ST (S0 & bs & L & BS) PE H. assert (FIN : forall b, Forall2 evolves (ct_sess c) (ct_sess c1) -> ct_log c1 = ct_log c ++ b -> block (cp_gbd pr) sessions (is_over c1) b -> acked pr sessions c1).
  { intros b EV LG BL. split; [exact (since_evs _ _ _ S0 EV)|]. exists (bs ++ [b]). split; [rewrite concat_app; cbn [concat]; rewrite app_nil_r, <- L; exact LG|]. apply Forall_app. split; [|constructor; [exact BL|constructor]].
    eapply Forall_impl; [|exact BS]. intros x. apply block_impl. intros i. apply over_ev. exact EV. }
  destruct (step_ack _ _ _ _ (since_ok _ _ S0) H) as [(l & LG & OT & EV)|(i & cmd & seq & body & o & ss & s1 & ca1 & out & -> & N & G & LG & SE & SD)].
  - apply (FIN l EV LG). left. exact OT.
  - destruct PE as [B LI]. destruct (F2_nth_r _ _ _ _ _ S0 N) as (s0 & N0 & SI). pose proof (got_ev _ _ _ _ _ _ _ _ _ _ _ SI B LI G) as EV1.
    assert (EV : Forall2 evolves (ct_sess c) (ct_sess c1)) by (rewrite SE; exact (ev_put _ _ _ _ N EV1)). apply (FIN _ EV LG).
    assert (OV : closed s1 -> is_over c1 i). { intros X. exists s1. split; [|exact X]. rewrite SE, nth_error_app2; rewrite firstn_length_le by (apply Nat.lt_le_incl, nth_error_Some; congruence); [rewrite Nat.sub_diag; reflexivity|lia]. }
    right. assert (AC : exists a, cs_ac s0 = Some a) by (rewrite Forall_forall in ST; destruct (ST s0 (nth_error_In _ _ N0)) as (a & [_ A] & _); eauto). destruct AC as (a & AC). destruct SI as (SP & SI). rewrite SP.
    exists i, s0, a, cmd, seq, body, out. split; [reflexivity|]. split; [exact N0|]. split; [exact AC|]. destruct SI as [(a1 & A1 & O)|K].
    + assert (a1 = a) by congruence. subst a1. destruct (handler_acks _ _ _ _ _ _ _ _ _ _ _ O B LI G) as [OE EN]. rewrite <- SP. destruct (g_err o).
      * destruct EN as [[_ X]|[X _]]; [left; auto|right]. exists (g_id o). split; [exact LI|]. rewrite failed_ends by exact X. exact OE.
      * right. exists (g_id o). auto.
    + destruct (handler_closed _ _ _ _ _ _ _ _ _ _ K G) as [-> ->]. left. split; [reflexivity|apply OV; exact K].
Qed.
(** In every run of a client whose sessions have logged in, every received packet is directly followed
    by exactly its acknowledgement, and no other answers are written. *)
Theorem C106_partial : forall pr sessions es c, Forall (fun s => exists a, open_sess s a) sessions -> Forall proper es -> crun pr (cstart sessions) es = Ok c ->
  exists bs, ct_log c = concat bs /\ Forall (block (cp_gbd pr) sessions (is_over c)) bs.
Proof.
  intros pr sessions es c ST PE H. assert (A : acked pr sessions (cstart sessions)).
  { split; [|exists []; split; [reflexivity|constructor]]. cbn [cstart ct_sess]. clear -ST. induction ST as [|s l (a & O) _ IH]; constructor; [|exact IH]. split; [reflexivity|]. left. exists a. split; [exact (proj2 (proj1 O))|exact O]. }
  revert A H. generalize (cstart sessions) as c0. induction PE as [|e es P _ IH]; intros c0 A H; cbn [crun] in H; [injection H as <-; exact (proj2 A)|].
  apply bind_ok in H as (c2 & E & H). exact (IH c2 (acked_step _ _ _ _ _ ST A P E) H).
Qed.
(** SGIP delivers and reports are never acknowledged, in no state of the client. *)
Theorem C106_refuted_sgip : forall pr c i ss cmd seq body o, nth_error (ct_sess c) i = Some ss -> cs_p ss = P_SGIP -> cmd = 4 \/ cmd = 5 ->
  due_ack P_SGIP false cmd seq body <> [] /\ exists c1, cstep pr c (CGot i cmd seq body o) = Ok c1 /\ ct_log c1 = ct_log c ++ [OGotP i P_SGIP cmd seq body] /\ ct_ca c1 = ct_ca c.
Proof.
  intros pr c i ss cmd seq body o N P E. split; [destruct E as [-> | ->]; discriminate|]. cbn [cstep]. rewrite N. unfold c_onTraffic. rewrite P. destruct E as [-> | ->]; (eexists; split; [reflexivity|split; reflexivity]).
Qed.
(** An SMGP deliver is acknowledged under a message id the client draws: the acknowledgement is the one
    due exactly if that happens to be the id of the deliver. *)
Theorem C106_refuted_smgp : forall pr c i ss a seq body o, nth_error (ct_sess c) i = Some ss -> open_sess ss a -> cs_p ss = P_SMGP -> bytes_ok body -> zlen (g_id o) = 10 ->
  smgp_deliver_safe body -> unreadable (cp_gbd pr) body = false -> g_err o = false ->
  exists c1 b, cstep pr c (CGot i 3 seq body o) = Ok c1 /\ ct_log c1 = ct_log c ++ [OGotP i P_SMGP 3 seq body; OReply i b] /\ firstn 10 (skipn 12 b) = g_id o /\
    ([b] = due_ack P_SMGP (version_three a) 3 seq body <-> firstn 10 body = g_id o).
Proof.
  intros pr c i ss a seq body o N O P B LI SA UR GE. destruct (C73_exact (cp_gbd pr) ss (ct_ca c) 3 seq body o a (proj1 O) B) as [[_ ([[s1 ca] out] & G)]|[X _]].
  2: { exfalso. apply X. rewrite P. cbn. repeat split; intros; try discriminate. exact SA. }
  destruct (handler_acks _ _ _ _ _ _ _ _ _ _ _ O B LI G) as [OE _]. rewrite GE, P in OE. unfold sent_ack in OE. rewrite UR in OE. cbn [Z.eqb Pos.eqb] in OE.
  exists (say (put_ca (put_sess c i s1) ca) (OGotP i (cs_p ss) 3 seq body :: map (OReply i) out)), (wire_of (2 ^ 31 + 3) seq (g_id o ++ [0; 0; 0; 0])).
  split; [cbn [cstep]; rewrite N, G; reflexivity|]. split; [rewrite OE, P; reflexivity|].
  assert (Q : forall x : bytes, zlen x = 10 -> firstn 10 (skipn 12 (wire_of (2 ^ 31 + 3) seq (x ++ [0; 0; 0; 0]))) = x).
  { intros x L. unfold wire_of. do 10 (destruct x as [|? x]; [discriminate L|]). destruct x; [|unfold zlen in L; cbn [length] in L; lia]. hide4 seq. reflexivity. }
  split; [exact (Q _ LI)|]. unfold due_ack. cbn [Z.eqb Pos.eqb]. split; [|intros ->; reflexivity].
  intros X. apply (f_equal (fun l => hd [] l)) in X. cbn [hd] in X. destruct SA as (rd & ml & _ & [_ ML] & _). assert (ML2 : (68 < length body)%nat) by (change 68%nat with (Z.to_nat 68); apply nth_error_Some; congruence). assert (LB : zlen (firstn 10 body) = 10) by (unfold zlen, bytes in *; rewrite firstn_length; lia). rewrite <- (Q (firstn 10 body) LB), <- X. exact (Q _ LI).
Qed.
(** A deliver on a CMPP session is acknowledged with its own message id; a run with an active test, a
    deliver and a terminate; SMGP: another id than the one delivered. *)
Definition cmpp_deliver : bytes := [1; 2; 3; 4; 5; 6; 7; 8] ++ repeat 48 21 ++ repeat 0 10 ++ [0; 0; 0] ++ repeat 49 32 ++ [0; 0; 2; 72; 105] ++ repeat 0 20.
Definition smgp_deliver : bytes := [1; 2; 3; 4; 5; 6; 7; 8; 9; 10] ++ [0; 15] ++ repeat 48 14 ++ repeat 49 42 ++ [2; 72; 105].
Definition ten : bytes := [16; 16; 16; 17; 17; 17; 18; 18; 18; 19].
Definition log_demo (p : proto) (es : list cevent) : option (list cobs) := match crun pr_demo (cstart [sess_demo p]) es with Ok c => Some (ct_log c) | _ => None end.
Example C106_case :
  log_demo P_CMPP [CGot 0 8 7 [] (GOrc false 9 ten); CGot 0 5 8 cmpp_deliver (GOrc false 9 ten); CGot 0 2 9 [] (GOrc false 9 ten)]
  = Some [OGotP 0 P_CMPP 8 7 []; OReply 0 (wire_of (2 ^ 31 + 8) 7 [0]); OGotP 0 P_CMPP 5 8 cmpp_deliver; OReply 0 (wire_of (2 ^ 31 + 5) 8 ([1; 2; 3; 4; 5; 6; 7; 8] ++ [0; 0; 0; 0]));
          OGotP 0 P_CMPP 2 9 []; OReply 0 (wire_of (2 ^ 31 + 2) 9 [])]
  /\ log_demo P_SMGP [CGot 0 3 8 smgp_deliver (GOrc false 9 ten)] = Some [OGotP 0 P_SMGP 3 8 smgp_deliver; OReply 0 (wire_of (2 ^ 31 + 3) 8 (ten ++ [0; 0; 0; 0]))]
  /\ (forall p, Forall (fun s => exists a, open_sess s a) [sess_demo p]) /\ bytes_ok cmpp_deliver /\ bytes_ok smgp_deliver /\ zlen ten = 10 /\ smgp_deliver_safe smgp_deliver /\ unreadable (cp_gbd pr_demo) smgp_deliver = false.
Proof.
  split; [vm_compute; reflexivity|]. split; [vm_compute; reflexivity|]. split; [intros p; repeat constructor; exists PropCmpp.ac_demo; split; [split; reflexivity|discriminate]|].
  assert (OK : forall l, forallb (fun x => (0 <=? x) && (x <? 256)) l = true -> bytes_ok l) by (intros l H; unfold bytes_ok; apply Forall_forall; intros x X; rewrite forallb_forall in H; specialize (H x X); cbv beta in H; unfold is_byte; lia).
  split; [apply OK; vm_compute; reflexivity|]. split; [apply OK; vm_compute; reflexivity|]. split; [reflexivity|]. split; [|vm_compute; reflexivity].
  exists 0, 2. split; [split; [vm_compute; intuition discriminate|reflexivity]|]. split; [split; [vm_compute; intuition discriminate|reflexivity]|]. vm_compute. discriminate.
Qed.
Print Assumptions C106_step_partial.
Print Assumptions C106_partial.
Print Assumptions C106_refuted_sgip.
Print Assumptions C106_refuted_smgp.
