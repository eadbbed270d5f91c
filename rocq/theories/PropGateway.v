(** * PropGateway: which packets of a gateway crash the client (C73). *)
From Verif Require Import Base UtilsModel OptionsModel TlvModel CmppModel SgipModel SmgpModel FrameModel PropPanics ClientModel SpecClient ClientProofs PropClient.

(** ** Specification *)
(** Packets a client survives.  Login answers: all fields and status 0; submit answers: all fields;
    deliveries: the stated content is there (C46); SGIP unbind: the rest of the header. *)
Definition harmless (p : proto) (three : bool) (cmd : Z) (body : bytes) : Prop :=
  match p with
  | P_CMPP => (cmd = 2147483649 -> (if three then 21 else 18) <= zlen body /\ byte_at body (if three then 3 else 0) 0)
              /\ (cmd = 2147483652 -> (if three then 12 else 9) <= zlen body) /\ (cmd = 5 -> delivery_safe three body)
  | P_SGIP => (cmd = 2147483649 -> 9 <= zlen body /\ byte_at body 8 0)
              /\ (cmd = 2 \/ cmd = 2147483650 -> 8 <= zlen body) /\ (cmd = 2147483651 -> 9 <= zlen body)
  | P_SMGP => (cmd = 2147483649 -> 21 <= zlen body /\ firstn 4 body = [0; 0; 0; 0])
              /\ (cmd = 2147483650 -> 14 <= zlen body) /\ (cmd = 3 -> smgp_deliver_safe body)
  end.
(** A session that is not closed. *)
Definition connected (s : csess) (a : authconf) : Prop := cs_con s = true /\ cs_ac s = Some a.
Definition version_three (a : authconf) : bool := is_v3 (ac_Version a).

(** ** Encodings of answers never fail *)
Lemma total {A} (x : res A) : match x with Ok _ => True | _ => False end -> exists y, x = Ok y.
Proof. destruct x; try contradiction. eauto. Qed.
Lemma enc_active q : exists b, ActiveTestRsp_Encode (CHead 13 (RESP + ACTIVE_TEST) q) = Ok b.
Proof. apply total. vm_compute. exact I. Qed.
Lemma enc_head c q : exists b, head_Encode (CHead 12 c q) = Ok b.
Proof. apply total. vm_compute. exact I. Qed.
Lemma enc_smhead c q : exists b, smhead_Encode (CHead 12 c q) = Ok b.
Proof. apply total. vm_compute. exact I. Qed.
Lemma enc_shead c q : exists b, shead_Encode (SHead 20 c q) = Ok b.
Proof. apply total. destruct q as [[x y] z]. vm_compute. exact I. Qed.
Lemma enc_deliver d k : exists b, cresp_Encode (Delivery_ToResponse d k) = Ok b.
Proof. apply total. unfold cresp_Encode, Delivery_ToResponse. cbn [rs_h rs_version rs_msgId rs_result]. destruct (is_v3 (dl_version d)); generalize (dl_msgId d) (h_seq (dl_h d)); intros; vm_compute; exact I. Qed.
Lemma zlen_splice f i x : 0 <= i -> i + zlen x <= zlen f -> zlen (splice f i x) = zlen f.
Proof. intros A B. unfold splice, zlen, bytes in *. rewrite !app_length, firstn_length, skipn_length. lia. Qed.
Lemma enc_mdeliver d k id : exists b, mresp_Encode (MDeliver_ToResponse d k id) = Ok b.
Proof.
  unfold mresp_Encode, MDeliver_ToResponse. cbn [mr_h mr_msgId mr_status].
  assert (H : exists f, smhead_Encode (CHead 26 (RESP + SM_DELIVER) (h_seq (md_h d))) = Ok f /\ zlen f = 26).
  { assert (X : match smhead_Encode (CHead 26 (RESP + SM_DELIVER) (h_seq (md_h d))) with Ok f => zlen f = 26 | _ => False end) by (generalize (h_seq (md_h d)); intros; vm_compute; reflexivity).
    destruct (smhead_Encode _) as [f| |]; try contradiction. eauto. }
  destruct H as (f & -> & L). cbn [bind]. unfold copy_at. rewrite L. cbn [Z.leb Z.compare Pos.compare Pos.compare_cont andb bind]. unfold put_be.
  rewrite zlen_splice; [|lia|unfold zlen, bytes in *; rewrite firstn_length; lia]. rewrite L. cbn. eauto.
Qed.
Lemma close_ok s : cs_con s = true -> exists s1, Close s = Ok s1.
Proof. intros C. unfold Close. rewrite C. destruct (cs_stat s); eauto. Qed.

(** ** Exactly the harmless packets are survived *)
Lemma crash_bind {A B} (safe1 safe2 : Prop) (D : res A) (g : A -> res B) : crashes_unless safe1 D -> (forall d, D = Ok d -> crashes_unless safe2 (g d)) -> crashes_unless (safe1 /\ safe2) (bind D g).
Proof. intros [[S [d E]]|[S E]] H; rewrite E; cbn [bind]. - destruct (H d E) as [[S2 K]|[S2 K]]; [left; auto|right; split; [tauto|exact K]]. - right. split; [tauto|reflexivity]. Qed.
Lemma crash_equiv {A} (s1 s2 : Prop) (D : res A) : (s1 <-> s2) -> crashes_unless s1 D -> crashes_unless s2 D.
Proof. unfold crashes_unless. tauto. Qed.
Lemma crash_ok {A} (s : Prop) (D : res A) : s -> (exists d, D = Ok d) -> crashes_unless s D.
Proof. left. auto. Qed.
Lemma answer_ok s ca e o : cs_con s = true -> (exists b, e = Ok b) -> exists h, answer_or_close s ca e o = Ok h.
Proof. intros C (b & ->). unfold answer_or_close, reply_with, closing. cbn [bind]. rewrite C. cbn [bind]. destruct (g_err o); [|eauto]. destruct (close_ok s C) as (s1 & ->). cbn [bind]. eauto. Qed.
Ltac cases := repeat match goal with |- _ /\ _ => split end; intros; try discriminate; try contradiction;
  try (match goal with H : _ \/ _ |- _ => destruct H; try discriminate; try contradiction end); auto.
Theorem C73_exact : forall gbd s ca cmd seq body o a, connected s a -> bytes_ok body ->
  crashes_unless (harmless (cs_p s) (version_three a) cmd body) (c_onTraffic gbd s ca cmd seq body o).
Proof.
  intros gbd s ca cmd seq body o a [C A] BO. unfold c_onTraffic, harmless, version_three. destruct (cs_p s).
  - unfold onTrafficCmpp. set (s0 := touch s (g_now o)). assert (C0 : cs_con s0 = true) by exact C. assert (V : version_of s0 = Ok (ac_Version a)) by (unfold version_of, s0, touch; cbn [cs_ac]; rewrite A; reflexivity).
    change (RESP + CONNECT) with 2147483649. change ACTIVE_TEST with 8. change TERMINATE with 2. change (RESP + SUBMIT) with 2147483652. change DELIVER with 5. change (RESP + 8) with 2147483656. change (RESP + 2) with 2147483650. rewrite V. cbn [bind].
    destruct (cmd =? 2147483649) eqn:E1.
    { apply Z.eqb_eq in E1. subst cmd. eapply crash_equiv; [|eapply (crash_bind _ (byte_at body (if is_v3 (ac_Version a) then 3 else 0) 0)); [apply C46_cmpp_connect_resp|]].
      - split; [intros [X Y]; cases|intros [X _]; apply X; reflexivity].
      - intros d D. unfold ConnectResp_Decode in D. cbv zeta in D. apply bind_ok in D as (st & ST & D). apply bind_ok in D as (au & _ & D). apply bind_ok in D as (v & _ & D). injection D as <-. cbn [cr_status]. apply at_byte in ST.
        destruct (st =? 0) eqn:Z0; [apply Z.eqb_eq in Z0; subst st; left; split; [exact ST|unfold nothing; eauto]|]. right. split; [|reflexivity]. intros [_ X]. destruct ST as [_ ST]. rewrite X in ST. injection ST as <-. discriminate Z0. }
    apply Z.eqb_neq in E1. destruct (cmd =? 8) eqn:E2.
    { apply Z.eqb_eq in E2. subst cmd. apply crash_ok; [cases|]. unfold ActiveTest_Decode. cbn [bind]. apply answer_ok; [exact C0|]. unfold ActiveTest_ToResponse. apply enc_active. }
    destruct (cmd =? 2147483656) eqn:E3.
    { apply Z.eqb_eq in E3. subst cmd. apply crash_ok; [cases|]. unfold nothing. eauto. }
    destruct (cmd =? 2) eqn:E4.
    { apply Z.eqb_eq in E4. subst cmd. apply crash_ok; [cases|]. unfold Terminate_Decode. cbn [bind]. unfold Terminate_ToResponse. destruct (enc_head (RESP + 2) seq) as (b & B). cbn [h_seq]. change TERMINATE with 2. rewrite B. unfold reply_with. cbn [bind]. rewrite C0. cbn [bind]. unfold closing. destruct (close_ok s0 C0) as (s1 & ->). cbn [bind]. eauto. }
    destruct (cmd =? 2147483650) eqn:E5.
    { apply Z.eqb_eq in E5. subst cmd. apply crash_ok; [cases|]. unfold closing. destruct (close_ok s0 C0) as (s1 & ->). cbn [bind]. eauto. }
    destruct (cmd =? 2147483652) eqn:E6.
    { apply Z.eqb_eq in E6. subst cmd. eapply crash_equiv; [|eapply (crash_bind _ True); [apply C46_cmpp_resp|intros d D; apply crash_ok; [exact Logic.I|unfold nothing; eauto]]].
      split; [intros [X _]; cases|intros (_ & X & _); split; [apply X; reflexivity|exact Logic.I]]. }
    apply Z.eqb_neq in E6. destruct (cmd =? 5) eqn:E7.
    { apply Z.eqb_eq in E7. subst cmd. eapply crash_equiv; [|eapply (crash_bind _ True); [apply C46_cmpp_delivery; exact BO|intros d D; apply crash_ok; [exact Logic.I|]]].
      - split; [intros [X _]; cases|intros (_ & _ & X); split; [apply X; reflexivity|exact Logic.I]].
      - destruct (enc_deliver d 0) as (b & B). rewrite B. unfold reply_with. cbn [bind]. rewrite C0. cbn [bind]. destruct (g_err o); [destruct (close_ok s0 C0) as (s1 & ->)|]; cbn [bind]; eauto. }
    apply Z.eqb_neq in E7. apply crash_ok; [cases|unfold nothing; eauto].
  - unfold onTrafficSgip. set (s0 := touch s (g_now o)). assert (C0 : cs_con s0 = true) by exact C.
    change (RESP + SG_BIND) with 2147483649. change SG_UNBIND with 2. change (RESP + 2) with 2147483650. change (RESP + SG_SUBMIT) with 2147483651.
    destruct (cmd =? 2147483649) eqn:E1.
    { apply Z.eqb_eq in E1. subst cmd. eapply crash_equiv; [|eapply (crash_bind _ (byte_at body 8 0)); [apply C46_sgip_resp|]].
      - split; [intros [X Y]; cases|intros [X _]; apply X; reflexivity].
      - intros d D. unfold srsp_Decode in D. apply bind_ok in D as (b & _ & D). apply bind_ok in D as (c & _ & D). apply bind_ok in D as (st & ST & D). injection D as <-. cbn [sr_status]. apply at_byte in ST.
        destruct (st =? 0) eqn:Z0; [apply Z.eqb_eq in Z0; subst st; left; split; [exact ST|unfold nothing; eauto]|]. right. split; [|reflexivity]. intros [_ X]. destruct ST as [_ ST]. rewrite X in ST. injection ST as <-. discriminate Z0. }
    apply Z.eqb_neq in E1. destruct (cmd =? 2) eqn:E2.
    { apply Z.eqb_eq in E2. subst cmd. eapply crash_equiv; [|eapply (crash_bind _ True); [apply C46_sgip_unbind|intros d D; apply crash_ok; [exact Logic.I|]]].
      - split; [intros [X _]; cases|intros (_ & X & _); split; [apply X; auto|exact Logic.I]].
      - unfold Unbind_Decode in D. apply bind_ok in D as (x & _ & D). apply bind_ok in D as (y & _ & D). injection D as <-. unfold Unbind_ToResponse. cbn [sh_len sh_seq]. destruct (enc_shead (RESP + SG_UNBIND) (seq, x, y)) as (b & ->). unfold reply_with. cbn [bind]. rewrite C0. cbn [bind]. unfold closing. destruct (close_ok s0 C0) as (s1 & ->). cbn [bind]. eauto. }
    apply Z.eqb_neq in E2. destruct (cmd =? 2147483650) eqn:E3.
    { apply Z.eqb_eq in E3. subst cmd. eapply crash_equiv; [|eapply (crash_bind _ True); [apply C46_sgip_unbind|intros d D; apply crash_ok; [exact Logic.I|]]].
      - split; [intros [X _]; cases|intros (_ & X & _); split; [apply X; auto|exact Logic.I]].
      - unfold closing. destruct (close_ok s0 C0) as (s1 & ->). cbn [bind]. eauto. }
    apply Z.eqb_neq in E3. destruct (cmd =? 2147483651) eqn:E4.
    { apply Z.eqb_eq in E4. subst cmd. eapply crash_equiv; [|eapply (crash_bind _ True); [apply C46_sgip_resp|intros d D; apply crash_ok; [exact Logic.I|unfold nothing; eauto]]].
      split; [intros [X _]; cases|intros (_ & _ & X); split; [apply X; reflexivity|exact Logic.I]]. }
    apply Z.eqb_neq in E4. apply crash_ok; [cases|unfold nothing; eauto].
  - unfold onTrafficSmgp. set (s0 := touch s (g_now o)). assert (C0 : cs_con s0 = true) by exact C. assert (V : version_of s0 = Ok (ac_Version a)) by (unfold version_of, s0, touch; cbn [cs_ac]; rewrite A; reflexivity).
    change (RESP + SM_LOGIN) with 2147483649. change SM_ACTIVE_TEST with 4. change SM_EXIT with 6. change (RESP + SM_SUBMIT) with 2147483650. change SM_DELIVER with 3. change (RESP + 4) with 2147483652. change (RESP + 6) with 2147483654. rewrite V. cbn [bind].
    destruct (cmd =? 2147483649) eqn:E1.
    { apply Z.eqb_eq in E1. subst cmd. eapply crash_equiv; [|eapply (crash_bind _ (firstn 4 body = [0; 0; 0; 0])); [apply C46_smgp_login_resp|]].
      - split; [intros [X Y]; cases|intros [X _]; apply X; reflexivity].
      - intros d D. unfold LoginRsp_Decode in D. apply bind_ok in D as (st & ST & D). apply bind_ok in D as (au & AU & D). apply bind_ok in D as (v & VV & D). injection D as <-. cbn [lr_status].
        pose proof (at_bound _ _ _ VV) as BND. apply get_be_val in ST; [|lia]. cbn [Z.to_nat skipn] in ST.
        destruct body as [|b0 [|b1 [|b2 [|b3 r]]]]; try (unfold zlen in BND; cbn in BND; lia). cbn [firstn] in *.
        inversion BO as [|? ? H0 BO1]; subst. inversion BO1 as [|? ? H1 BO2]; subst. inversion BO2 as [|? ? H2 BO3]; subst. inversion BO3 as [|? ? H3 BO4]; subst. unfold is_byte in *.
        destruct (unbe [b0; b1; b2; b3] =? 0) eqn:Z0.
        + left. split; [|unfold nothing; eauto]. apply Z.eqb_eq in Z0. cbn [unbe fold_left] in Z0. assert (b0 = 0 /\ b1 = 0 /\ b2 = 0 /\ b3 = 0) by (cbn in Z0; lia). destruct H as (-> & -> & -> & ->). reflexivity.
        + right. split; [|reflexivity]. intros X. injection X as -> -> -> ->. discriminate Z0. }
    apply Z.eqb_neq in E1. destruct (cmd =? 4) eqn:E2.
    { apply Z.eqb_eq in E2. subst cmd. apply crash_ok; [cases|]. unfold sm_bare_Decode. cbn [bind]. apply answer_ok; [exact C0|]. unfold sm_bare_ToResponse. cbn [h_len h_seq]. apply enc_smhead. }
    destruct (cmd =? 2147483652) eqn:E3.
    { apply Z.eqb_eq in E3. subst cmd. apply crash_ok; [cases|]. unfold nothing. eauto. }
    destruct (cmd =? 6) eqn:E4.
    { apply Z.eqb_eq in E4. subst cmd. apply crash_ok; [cases|]. unfold sm_bare_Decode. cbn [bind]. unfold sm_bare_ToResponse. cbn [h_len h_seq]. match goal with |- context [smhead_Encode (CHead 12 ?x seq)] => destruct (enc_smhead x seq) as (b & ->) end. unfold reply_with. cbn [bind]. rewrite C0. cbn [bind]. unfold closing. destruct (close_ok s0 C0) as (s1 & ->). cbn [bind]. eauto. }
    destruct (cmd =? 2147483654) eqn:E5.
    { apply Z.eqb_eq in E5. subst cmd. apply crash_ok; [cases|]. unfold closing. destruct (close_ok s0 C0) as (s1 & ->). cbn [bind]. eauto. }
    destruct (cmd =? 2147483650) eqn:E6.
    { apply Z.eqb_eq in E6. subst cmd. eapply crash_equiv; [|eapply (crash_bind _ True); [apply C46_smgp_resp|intros d D; apply crash_ok; [exact Logic.I|unfold nothing; eauto]]].
      split; [intros [X _]; cases|intros (_ & X & _); split; [apply X; reflexivity|exact Logic.I]]. }
    apply Z.eqb_neq in E6. destruct (cmd =? 3) eqn:E7.
    { apply Z.eqb_eq in E7. subst cmd. eapply crash_equiv with (s1 := smgp_deliver_safe body); [split; [intros X; cases|intros (_ & _ & X); apply X; reflexivity]|].
      destruct (C46_smgp_deliver gbd (ac_Version a) seq body BO) as [[S [(d & D)|(rd & ml & t & _ & _ & _ & _ & _ & D)]]|[S D]]; rewrite D.
      - apply crash_ok; [exact S|]. destruct (enc_mdeliver d 0 (g_id o)) as (b & ->). unfold reply_with. cbn [bind]. rewrite C0. cbn [bind]. destruct (g_err o); [destruct (close_ok s0 C0) as (s1 & ->)|]; cbn [bind]; eauto.
      - apply crash_ok; [exact S|]. unfold closing. destruct (close_ok s0 C0) as (s1 & ->). cbn [bind]. eauto.
      - right. split; [exact S|reflexivity]. }
    apply Z.eqb_neq in E7. apply crash_ok; [cases|unfold nothing; eauto].
Qed.
(** A packet handed to the handlers after another goroutine closed the session: the ones that are
    answered or that need the account crash, whatever their body. *)
Definition harmless_closed (p : proto) (cmd : Z) (body : bytes) : Prop :=
  match p with
  | P_CMPP => ~ In cmd [2147483649; 8; 2; 2147483652; 5]
  | P_SGIP => cmd <> 2 /\ harmless P_SGIP false cmd body
  | P_SMGP => ~ In cmd [2147483649; 4; 6; 2147483650; 3]
  end.
Definition closed (s : csess) : Prop := cs_stat s = CClosing /\ cs_con s = false /\ cs_ac s = None.
Theorem C73_closed : forall gbd s ca cmd seq body o, closed s -> crashes_unless (harmless_closed (cs_p s) cmd body) (c_onTraffic gbd s ca cmd seq body o).
Proof.
  intros gbd s ca cmd seq body o (ST & C & A). unfold c_onTraffic, harmless_closed, harmless. destruct (cs_p s).
  - unfold onTrafficCmpp. set (s0 := touch s (g_now o)). assert (C0 : cs_con s0 = false) by exact C. assert (V : version_of s0 = Panic) by (unfold version_of, s0, touch; cbn [cs_ac]; rewrite A; reflexivity). assert (CL : Close s0 = Ok s0) by (unfold Close, s0, touch; cbn [cs_stat]; rewrite ST; reflexivity).
    change (RESP + CONNECT) with 2147483649. change ACTIVE_TEST with 8. change TERMINATE with 2. change (RESP + SUBMIT) with 2147483652. change DELIVER with 5. change (RESP + 8) with 2147483656. change (RESP + 2) with 2147483650. rewrite V. cbn [bind].
    destruct (cmd =? 2147483649) eqn:E1; [apply Z.eqb_eq in E1; subst; right; split; [cbn; tauto|reflexivity]|]. destruct (cmd =? 8) eqn:E2.
    { apply Z.eqb_eq in E2. subst. right. split; [cbn; tauto|]. unfold answer_or_close, ActiveTest_Decode, reply_with. cbn [bind]. unfold ActiveTest_ToResponse. destruct (enc_active (h_seq (CHead 12 ACTIVE_TEST seq))) as (b & ->). cbn [bind]. rewrite C0. reflexivity. }
    destruct (cmd =? 2147483656) eqn:E3; [apply Z.eqb_eq in E3; subst; left; split; [cbn; lia|unfold nothing; eauto]|]. destruct (cmd =? 2) eqn:E4.
    { apply Z.eqb_eq in E4. subst. right. split; [cbn; tauto|]. unfold Terminate_Decode, reply_with. cbn [bind]. unfold Terminate_ToResponse. destruct (enc_head (RESP + TERMINATE) (h_seq (CHead 12 TERMINATE seq))) as (b & ->). cbn [bind]. rewrite C0. reflexivity. }
    destruct (cmd =? 2147483650) eqn:E5; [apply Z.eqb_eq in E5; subst; left; split; [cbn; lia|unfold closing; rewrite CL; cbn [bind]; eauto]|].
    destruct (cmd =? 2147483652) eqn:E6; [apply Z.eqb_eq in E6; subst; right; split; [cbn; tauto|reflexivity]|]. destruct (cmd =? 5) eqn:E7; [apply Z.eqb_eq in E7; subst; right; split; [cbn; tauto|reflexivity]|].
    left. split; [cbn; lia|unfold nothing; eauto].
  - unfold onTrafficSgip. set (s0 := touch s (g_now o)). assert (C0 : cs_con s0 = false) by exact C. assert (CL : Close s0 = Ok s0) by (unfold Close, s0, touch; cbn [cs_stat]; rewrite ST; reflexivity).
    change (RESP + SG_BIND) with 2147483649. change SG_UNBIND with 2. change (RESP + 2) with 2147483650. change (RESP + SG_SUBMIT) with 2147483651.
    destruct (cmd =? 2147483649) eqn:E1.
    { apply Z.eqb_eq in E1. subst cmd. eapply crash_equiv; [|eapply (crash_bind _ (byte_at body 8 0)); [apply C46_sgip_resp|]].
      - split; [intros [X Y]; cases|intros [_ [X _]]; apply X; reflexivity].
      - intros d D. unfold srsp_Decode in D. apply bind_ok in D as (b & _ & D). apply bind_ok in D as (c & _ & D). apply bind_ok in D as (st & STT & D). injection D as <-. cbn [sr_status]. apply at_byte in STT.
        destruct (st =? 0) eqn:Z0; [apply Z.eqb_eq in Z0; subst st; left; split; [exact STT|unfold nothing; eauto]|]. right. split; [|reflexivity]. intros [_ X]. destruct STT as [_ STT]. rewrite X in STT. injection STT as <-. discriminate Z0. }
    apply Z.eqb_neq in E1. destruct (cmd =? 2) eqn:E2.
    { apply Z.eqb_eq in E2. subst cmd. right. split; [tauto|]. destruct (C46_sgip_unbind 2 seq body) as [[_ (d & D)]|[_ D]]; rewrite D; cbn [bind]; [|reflexivity].
      unfold Unbind_Decode in D. apply bind_ok in D as (x & _ & D). apply bind_ok in D as (y & _ & D). injection D as <-. unfold Unbind_ToResponse, reply_with. cbn [sh_len sh_seq]. destruct (enc_shead (RESP + SG_UNBIND) (seq, x, y)) as (b & ->). cbn [bind]. rewrite C0. reflexivity. }
    apply Z.eqb_neq in E2. destruct (cmd =? 2147483650) eqn:E3.
    { apply Z.eqb_eq in E3. subst cmd. eapply crash_equiv; [|eapply (crash_bind _ True); [apply C46_sgip_unbind|intros d D; apply crash_ok; [exact Logic.I|]]].
      - split; [intros [X _]; cases|intros (_ & _ & X & _); split; [apply X; auto|exact Logic.I]].
      - unfold closing. rewrite CL. cbn [bind]. eauto. }
    apply Z.eqb_neq in E3. destruct (cmd =? 2147483651) eqn:E4.
    { apply Z.eqb_eq in E4. subst cmd. eapply crash_equiv; [|eapply (crash_bind _ True); [apply C46_sgip_resp|intros d D; apply crash_ok; [exact Logic.I|unfold nothing; eauto]]].
      split; [intros [X _]; cases|intros (_ & _ & _ & X); split; [apply X; reflexivity|exact Logic.I]]. }
    apply Z.eqb_neq in E4. apply crash_ok; [cases|unfold nothing; eauto].
  - unfold onTrafficSmgp. set (s0 := touch s (g_now o)). assert (C0 : cs_con s0 = false) by exact C. assert (V : version_of s0 = Panic) by (unfold version_of, s0, touch; cbn [cs_ac]; rewrite A; reflexivity). assert (CL : Close s0 = Ok s0) by (unfold Close, s0, touch; cbn [cs_stat]; rewrite ST; reflexivity).
    change (RESP + SM_LOGIN) with 2147483649. change SM_ACTIVE_TEST with 4. change SM_EXIT with 6. change (RESP + SM_SUBMIT) with 2147483650. change SM_DELIVER with 3. change (RESP + 4) with 2147483652. change (RESP + 6) with 2147483654. rewrite V. cbn [bind].
    destruct (cmd =? 2147483649) eqn:E1; [apply Z.eqb_eq in E1; subst; right; split; [cbn; tauto|reflexivity]|]. destruct (cmd =? 4) eqn:E2.
    { apply Z.eqb_eq in E2. subst. right. split; [cbn; tauto|]. unfold answer_or_close, sm_bare_Decode, reply_with. cbn [bind]. unfold sm_bare_ToResponse. cbn [h_len h_seq]. match goal with |- context [smhead_Encode (CHead 12 ?x seq)] => destruct (enc_smhead x seq) as (b & ->) end. cbn [bind]. rewrite C0. reflexivity. }
    destruct (cmd =? 2147483652) eqn:E3; [apply Z.eqb_eq in E3; subst; left; split; [cbn; lia|unfold nothing; eauto]|]. destruct (cmd =? 6) eqn:E4.
    { apply Z.eqb_eq in E4. subst. right. split; [cbn; tauto|]. unfold sm_bare_Decode, reply_with. cbn [bind]. unfold sm_bare_ToResponse. cbn [h_len h_seq]. match goal with |- context [smhead_Encode (CHead 12 ?x seq)] => destruct (enc_smhead x seq) as (b & ->) end. cbn [bind]. rewrite C0. reflexivity. }
    destruct (cmd =? 2147483654) eqn:E5; [apply Z.eqb_eq in E5; subst; left; split; [cbn; lia|unfold closing; rewrite CL; cbn [bind]; eauto]|].
    destruct (cmd =? 2147483650) eqn:E6; [apply Z.eqb_eq in E6; subst; right; split; [cbn; tauto|reflexivity]|]. destruct (cmd =? 3) eqn:E7; [apply Z.eqb_eq in E7; subst; right; split; [cbn; tauto|reflexivity]|].
    left. split; [cbn; lia|unfold nothing; eauto].
Qed.

(** ** The client as a whole *)
(** Every session of a running client is connected or closed. *)
Definition sess_ok (s : csess) : Prop := (exists a, connected s a) \/ closed s.
Lemma Close_sess s s1 : sess_ok s -> Close s = Ok s1 -> sess_ok s1.
Proof. intros K H. unfold Close in H. destruct (cs_stat s) eqn:S; [|..]; try (destruct (cs_con s); [injection H as <-; right; split; [reflexivity|split; reflexivity]|discriminate H]). injection H as <-. exact K. Qed.
Lemma touch_sess s now : sess_ok s -> sess_ok (touch s now).
Proof. intros [(a & C)|C]; [left; exists a; exact C|right; exact C]. Qed.
Lemma closing_sess s ca out s1 ca1 out1 : sess_ok s -> closing s ca out = Ok (s1, ca1, out1) -> sess_ok s1.
Proof. intros K H. unfold closing in H. apply bind_ok in H as (s2 & E & H). injection H as <- <- <-. exact (Close_sess _ _ K E). Qed.
Lemma answer_sess s ca e o s1 ca1 out1 : sess_ok s -> answer_or_close s ca e o = Ok (s1, ca1, out1) -> sess_ok s1.
Proof. intros K H. unfold answer_or_close in H. apply bind_ok in H as (b & _ & H). destruct (g_err o); [exact (closing_sess _ _ _ _ _ _ K H)|]. injection H as <- <- <-. exact K. Qed.
Lemma traffic_sess gbd s ca cmd seq body o s1 ca1 out1 : sess_ok s -> c_onTraffic gbd s ca cmd seq body o = Ok (s1, ca1, out1) -> sess_ok s1.
Proof.
  intros K0 H. pose proof (touch_sess s (g_now o) K0) as K. unfold c_onTraffic in H.
  assert (N : forall (t : csess) ca2, sess_ok t -> nothing t ca2 = Ok (s1, ca1, out1) -> sess_ok s1) by (intros t ca2 X Y; injection Y as <- <- <-; exact X).
  destruct (cs_p s); unfold onTrafficCmpp, onTrafficSgip, onTrafficSmgp in H; cbv zeta in H; set (s0 := touch s (g_now o)) in *; clearbody s0;
    repeat match type of H with (if ?b then _ else _) = Ok _ => destruct b | bind _ _ = Ok _ => apply bind_ok in H as (? & ? & H) | match MDeliver_Decode ?g ?v ?q ?b with _ => _ end = Ok _ => destruct (MDeliver_Decode g v q b) end; try discriminate H;
    try (exact (N _ _ K H)); try (exact (closing_sess _ _ _ _ _ _ K H)); try (exact (answer_sess _ _ _ _ _ _ _ K H)).
  all: injection H as <- <- <-; match goal with E : (if g_err ?oo then Close ?t else Ok ?t) = Ok ?x, KK : sess_ok ?t |- sess_ok ?x => destruct (g_err oo); [exact (Close_sess _ _ KK E)|injection E as <-; exact KK] end.
Qed.
Lemma put_all (P : csess -> Prop) c i ss s1 : Forall P (ct_sess c) -> nth_error (ct_sess c) i = Some ss -> P s1 -> Forall P (ct_sess (put_sess c i s1)).
Proof.
  intros F N K. cbn [put_sess ct_sess]. apply Forall_forall. intros x X. rewrite Forall_forall in F. apply in_app_iff in X as [X|[X|X]]; [apply F; rewrite <- (firstn_skipn i (ct_sess c)); apply in_app_iff; auto|subst; exact K|].
  apply F. rewrite <- (firstn_skipn (S i) (ct_sess c)). apply in_app_iff. right. exact X.
Qed.
Lemma used_all c i now : Forall sess_ok (ct_sess c) -> Forall sess_ok (ct_sess (used c i now)).
Proof.
  intros F. unfold used. destruct (nth_error (ct_sess c) i) as [s|] eqn:N; [|exact F]. apply (put_all _ _ _ s); [exact F|exact N|].
  rewrite Forall_forall in F. destruct (F s (nth_error_In _ _ N)) as [(a & X)|X]; [left; exists a; exact X|right; exact X].
Qed.
Lemma sess_step pr c e c1 : Forall sess_ok (ct_sess c) -> cstep pr c e = Ok c1 -> Forall sess_ok (ct_sess c1).
Proof.
  intros F H. assert (AT : forall i ss, nth_error (ct_sess c) i = Some ss -> sess_ok ss) by (rewrite Forall_forall in F; intros i ss N; exact (F ss (nth_error_In _ _ N))).
  destruct e as [q msg ops phones|t choice d now|t ok now|t now|t|i cmd seq body o|i|h d now|d now|d now]; cbn [cstep] in H.
  - destruct phones; injection H as <-; exact F.
  - destruct (nth_error (ct_send c) t) as [s|]; [|injection H as <-; exact F]. destruct (sn_ph s); try (injection H as <-; exact F). destruct (sn_todo s); [injection H as <-; exact F|].
    destruct choice as [i|]; [|injection H as <-; exact F]. destruct (nth_error (ct_sess c) i) as [ss|]; [|injection H as <-; exact F]. destruct (HealthCheck ss); [|injection H as <-; exact F].
    destruct (cs_ac ss); [|injection H as <-; exact F]. apply bind_ok in H as (parts & _ & H). destruct parts; injection H as <-; [|exact F]. cbn [say ct_sess]. apply used_all. exact F.
  - destruct (nth_error (ct_send c) t) as [s|]; [|injection H as <-; exact F]. destruct (sn_ph s) as [|i phone parts done|i phone b key parts done|]; try (injection H as <-; exact F). destruct parts as [|[enc key] r]; [injection H as <-; exact F|].
    destruct (nth_error (ct_sess c) i) as [ss|] eqn:NS; [|injection H as <-; exact F]. apply bind_ok in H as (b & B & H). destruct ok; [injection H as <-; exact F|].
    apply bind_ok in H as (s1 & CL & H). injection H as <-. cbn [say ct_sess]. apply used_all. cbn [put_send ct_sess]. apply (put_all _ _ _ ss); [exact F|exact NS|]. exact (Close_sess _ _ (AT _ _ NS) CL).
  - destruct (nth_error (ct_send c) t) as [s|]; [|injection H as <-; exact F]. destruct (sn_ph s) as [|i phone parts done|i phone b key r done|]; try (injection H as <-; exact F). cbv zeta in H.
    destruct r; injection H as <-; [apply used_all; exact F|exact F].
  - destruct (nth_error (ct_send c) t) as [s|]; [|injection H as <-; exact F]. destruct (sn_ph s); try (injection H as <-; exact F). destruct (sn_todo s); injection H as <-; exact F.
  - destruct (nth_error (ct_sess c) i) as [ss|] eqn:NS; [|injection H as <-; exact F]. apply bind_ok in H as ([[s1 ca] out] & G & H). injection H as <-. cbn [say put_ca ct_sess]. apply (put_all _ _ _ ss); [exact F|exact NS|]. exact (traffic_sess _ _ _ _ _ _ _ _ _ _ (AT _ _ NS) G).
  - destruct (nth_error (ct_sess c) i) as [ss|] eqn:NS; [|injection H as <-; exact F]. apply bind_ok in H as (s1 & CL & H). injection H as <-. apply (put_all _ _ _ ss); [exact F|exact NS|]. exact (Close_sess _ _ (AT _ _ NS) CL).
  - injection H as <-. exact F.
  - injection H as <-. exact F.
  - injection H as <-. exact F.
Qed.
Lemma sess_run pr es : forall c c1, Forall sess_ok (ct_sess c) -> crun pr c es = Ok c1 -> Forall sess_ok (ct_sess c1).
Proof. induction es as [|e es IH]; intros c c1 F H; cbn [crun] in H; [injection H as <-; exact F|]. apply bind_ok in H as (c2 & E & H). exact (IH _ _ (sess_step _ _ _ _ F E) H). Qed.
(** Which packets end the process, in any state of a client started with connected sessions. *)
Definition survived (s : csess) (cmd : Z) (body : bytes) : Prop :=
  match cs_ac s with Some a => harmless (cs_p s) (version_three a) cmd body | None => harmless_closed (cs_p s) cmd body end.
Theorem C73_client_partial : forall pr sessions es c i ss cmd seq body o, Forall (fun s => exists a, connected s a) sessions -> crun pr (cstart sessions) es = Ok c ->
  nth_error (ct_sess c) i = Some ss -> bytes_ok body -> crashes_unless (survived ss cmd body) (cstep pr c (CGot i cmd seq body o)).
Proof.
  intros pr sessions es c i ss cmd seq body o F H N BO. assert (K : sess_ok ss).
  { assert (X : Forall sess_ok (ct_sess c)) by (apply (sess_run pr es (cstart sessions) c); [cbn; eapply Forall_impl; [|exact F]; intros x (a & X); left; eauto|exact H]). rewrite Forall_forall in X. exact (X ss (nth_error_In _ _ N)). }
  cbn [cstep]. rewrite N. assert (E : forall S : Prop, crashes_unless S (c_onTraffic (cp_gbd pr) ss (ct_ca c) cmd seq body o) ->
    crashes_unless S ('(s1, ca, out) <- c_onTraffic (cp_gbd pr) ss (ct_ca c) cmd seq body o ;; Ok (say (put_ca (put_sess c i s1) ca) (OGotP i (cs_p ss) cmd seq body :: map (OReply i) out)))).
  { intros S [[X ([[s1 ca] out] & Y)]|[X Y]]; rewrite Y; cbn [bind]; [left; eauto|right; auto]. }
  apply E. unfold survived. destruct K as [(a & C)|C]; [rewrite (proj2 C); apply C73_exact; assumption|rewrite (proj2 (proj2 C)); apply C73_closed; assumption].
Qed.
(** Every connected session can be used to end the process: a login answer that is cut short or whose
    status is not 0, at any time; a submit answer without fields; and once a session is closed, any
    packet read before that needs an answer. *)
Theorem C73_refuted : forall pr c i ss a seq o, nth_error (ct_sess c) i = Some ss -> connected ss a ->
  cstep pr c (CGot i 2147483649 seq [] o) = Panic /\
  cstep pr c (CGot i (match cs_p ss with P_CMPP => 2147483652 | P_SGIP => 2147483651 | P_SMGP => 2147483650 end) seq [] o) = Panic /\
  forall st body, (forall k, (k < 9)%nat -> nth k body 0 = st) -> 0 < st < 256 -> bytes_ok body -> (9 <= length body)%nat -> cstep pr c (CGot i 2147483649 seq body o) = Panic.
Proof.
  intros pr c i ss a seq o N C. cbn [cstep]. rewrite N.
  assert (E : forall cmd body, bytes_ok body -> ~ harmless (cs_p ss) (version_three a) cmd body -> c_onTraffic (cp_gbd pr) ss (ct_ca c) cmd seq body o = Panic).
  { intros cmd body BO H. destruct (C73_exact (cp_gbd pr) ss (ct_ca c) cmd seq body o a C BO) as [[X _]|[_ X]]; [contradiction|exact X]. }
  split; [|split].
  - rewrite E; [reflexivity|constructor|]. unfold harmless. destruct (cs_p ss); intros [X _]; destruct (X eq_refl) as [L _]; destruct (version_three a); unfold zlen in L; cbn in L; lia.
  - rewrite E; [reflexivity|constructor|]. unfold harmless. destruct (cs_p ss); intros (_ & X & Y); [pose proof (X eq_refl) as L|pose proof (Y eq_refl) as L|pose proof (X eq_refl) as L]; destruct (version_three a); unfold zlen in L; cbn in L; lia.
  - intros st body AT R BO LB. rewrite E; [reflexivity|exact BO|]. assert (B : forall k x, (k < 9)%nat -> nth_error body k = Some x -> x = st) by (intros k x L X; rewrite <- (AT k L); symmetry; apply nth_error_nth; exact X).
    unfold harmless. destruct (cs_p ss); intros [X _]; destruct (X eq_refl) as [_ Y].
    + destruct Y as [_ Y]. apply B in Y; [lia|destruct (version_three a); cbn; lia].
    + destruct Y as [_ Y]. apply B in Y; [lia|cbn; lia].
    + destruct body as [|b0 body]; [cbn in LB; lia|]. destruct body as [|b1 body]; [cbn in LB; lia|]. cbn [firstn] in Y. assert (b0 = st) by (apply (B 0%nat); [lia|reflexivity]). injection Y as Y _. lia.
Qed.
(** A rejected login answer in the middle of a send; a delivery after the session was closed; an
    active test is harmless. *)
Example C73_case :
  crun pr_demo (cstart [sess_demo P_CMPP]) (firstn 3 send_demo ++ [CGot 0 2147483649 1 ([0; 0; 0; 3] ++ repeat 0 17) (GOrc false 9 [])]) = Panic
  /\ crun pr_demo (cstart [sess_demo P_CMPP]) (send_demo ++ [CClose 0; CGot 0 5 1 [] (GOrc false 9 [])]) = Panic
  /\ (exists c, crun pr_demo (cstart [sess_demo P_CMPP]) (send_demo ++ [CGot 0 8 1 [] (GOrc false 9 [])]) = Ok c)
  /\ Forall (fun s => exists a, connected s a) [sess_demo P_CMPP].
Proof.
  split; [vm_compute; reflexivity|]. split; [vm_compute; reflexivity|]. split; [apply total; vm_compute; exact I|]. repeat constructor. eexists; split; reflexivity.
Qed.
Print Assumptions C73_exact.
Print Assumptions C73_closed.
Print Assumptions C73_client_partial.
Print Assumptions C73_refuted.
