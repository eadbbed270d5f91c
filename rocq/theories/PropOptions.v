(** * PropOptions: property C26 (submit options override the account configuration). *)
From Verif Require Import Base UtilsModel OptionsModel SpecOptions SpecWire PropEvents
  CmppModel CmppProofs CmppSubmitProofs CmppBuildProofs PropCmpp SgipModel SgipProofs PropSgip
  TlvModel PropTlv SmgpModel SmgpProofs PropSmgp.

(** ** C26 Submit options override the account configuration, otherwise it applies *)

(** What the message has to carry for a number with an allowed range: the last value asked for
    if it is allowed, else the account's value. *)
Definition carries_num (ok : Z -> Prop) (asked : option Z) (account x : Z) : Prop :=
  (forall t, asked = Some t -> ok t -> x = t) /\
  ((forall t, asked = Some t -> ~ ok t) -> x = account).
(** Texts: an empty text counts as not asked for. *)
Definition carries_txt (asked : option bytes) (account x : bytes) : Prop :=
  (forall t, asked = Some t -> t <> [] -> x = t) /\
  ((forall t, asked = Some t -> t = []) -> x = account).
Definition flag (t : Z) : Prop := t = 0 \/ t = 1.
Definition level (t : Z) : Prop := t <= 9.
Definition user_type (t : Z) : Prop := 0 <= t <= 3.
Definition fee_types : list bytes := [[48;49]; [48;50]; [48;51]; [48;52]; [48;53]].
(** Fee type: one of "01".."05". *)
Definition carries_fee (asked : option bytes) (account x : bytes) : Prop :=
  (forall t, asked = Some t -> In t fee_types -> x = t) /\
  ((forall t, asked = Some t -> ~ In t fee_types) -> x = account).

Lemma ranged_carries ok x v a : (forall t, ok t \/ ~ ok t) -> ~ ok 15 -> ranged ok x v -> carries_num ok v a (opt_num x a).
Proof.
  intros D N H. unfold carries_num, opt_num. destruct v as [t|]; cbn [ranged] in H.
  - destruct H as [H1 H2]. split.
    + intros t' E Ht. injection E as <-. rewrite (H1 Ht). destruct (t =? 15) eqn:E; [|reflexivity].
      apply Z.eqb_eq in E. subst. contradiction.
    + intros Hn. rewrite (H2 (Hn t eq_refl)). reflexivity.
  - subst x. split; [discriminate|reflexivity].
Qed.
Lemma text_carries v a : carries_txt v a (opt_txt (text_or_empty v) a).
Proof.
  unfold carries_txt, opt_txt, text_or_empty. destruct v as [[|b r]|]; split; intros; try congruence.
  specialize (H _ eq_refl). discriminate.
Qed.

(** CMPP, any version: every part of every built submit. *)
Theorem C26_cmpp : forall ac phones content seq ops vd g nxt msgs s,
  ac_wf ac -> ops_wf ops -> zlen phones <= 255 -> 0 <= seq < 2 ^ 32 -> (forall i, 0 <= nxt i < 2 ^ 32) ->
  NewSubmit ac phones content seq ops vd g nxt = Ok msgs -> In s msgs ->
  carries_num flag (last_set req_NeedReport ops) (ac_NeedReport ac) (sb_registeredDel s) /\
  carries_num level (last_set req_MsgLevel ops) (ac_DefaultMsgLevel ac) (sb_msgLevel s) /\
  carries_num user_type (last_set req_FeeUsertype ops) (ac_FeeUserType ac) (sb_feeUsertype s) /\
  carries_num flag (last_set req_FeeTerminalType ops) (ac_FeeTerminalType ac) (sb_feeTerminalType s) /\
  carries_fee (last_set req_FeeType ops) (ac_FeeType ac) (sb_feeType s) /\
  carries_txt (last_set req_FeeCode ops) (ac_FeeCode ac) (sb_feeCode s) /\
  carries_txt (last_set req_FeeTerminalId ops) (ac_FeeTerminalId ac) (sb_feeTerminalId s) /\
  carries_txt (last_set req_LinkID ops) (ac_LinkId ac) (sb_linkID s) /\
  carries_txt (last_set req_ServiceId ops) (ac_ServiceId ac) (sb_serviceId s) /\
  carries_txt (last_set req_ValidTime ops) vd (sb_validTime s) /\
  carries_txt (last_set req_AtTime ops) [] (sb_atTime s) /\
  sb_srcId s = ac_SmsDisplayNo ac ++ text_or_empty (last_set req_SpSubNo ops).
Proof.
  intros ac phones content seq ops vd g nxt msgs s Ha Ho Hp Hs Hx E Hin.
  destruct (NewSubmit_ok ac phones content seq ops vd g nxt Ha Ho Hp Hs Hx) as (m & parts & E1 & E2 & E3 & E4 & H).
  rewrite E in E1. injection E1 as <-.
  destruct (In_nth_error _ _ Hin) as [k Hk].
  destruct (nth_error parts k) as [b|] eqn:Eb.
  2:{ apply nth_error_None in Eb. assert (k < length msgs)%nat by (apply nth_error_Some; congruence). lia. }
  destruct (H k s b Hk Eb) as (_ & B & _).
  destruct B as (B1 & B2 & B3 & B4 & B5 & B6 & B7 & B8 & B9 & B10 & B11 & B12 & B13 & B14 & B15 & B16 & B17 & B18 & B19).
  destruct (C25_last_wins ops) as (L1 & L2 & L3 & L4 & L5 & L6 & L7 & L8 & L9 & L10 & L11 & L12).
  rewrite B8, B9, B10, B11, B12, B13, B14, B15, B16, B17, B18, B19, L6, L7, L8, L9, L10, L11, L12.
  split. { apply ranged_carries; auto; unfold flag; intros; lia. }
  split. { apply ranged_carries; auto; unfold level; intros; lia. }
  split. { apply ranged_carries; auto; unfold user_type; intros; lia. }
  split. { apply ranged_carries; auto; unfold flag; intros; lia. }
  split. { unfold carries_fee. destruct (last_set req_FeeType ops) as [t|].
    - destruct L5 as [L5a L5b]. split.
      + intros t' Et Ht. injection Et as <-. rewrite (L5a Ht). unfold fee_types in Ht. cbn in Ht.
        destruct Ht as [<-|[<-|[<-|[<-|[<-|[]]]]]]; reflexivity.
      + intros Hn. rewrite (L5b (Hn t eq_refl)). reflexivity.
    - rewrite L5. split; [discriminate|reflexivity]. }
  split; [apply text_carries|]. split; [apply text_carries|]. split; [apply text_carries|].
  split; [apply text_carries|]. split; [apply text_carries|]. split; [|reflexivity].
  pose proof (text_carries (last_set req_AtTime ops) []) as T. unfold opt_txt in T.
  destruct (text_or_empty (last_set req_AtTime ops)); exact T.
Qed.

(** SGIP: the parameters the packet has a place for and the code fills.  Fee type and fee value
    are not among them: they are always 0 and empty. *)
Theorem C26_sgip_partial : forall ac phones content ops vd g q msgs s,
  sgip_NewSubmit ac phones content ops vd g q = Ok msgs -> In s msgs ->
  carries_num flag (last_set req_NeedReport ops) (ac_NeedReport ac) (ss_ReportFlag s) /\
  carries_num level (last_set req_MsgLevel ops) (ac_DefaultMsgLevel ac) (ss_Priority s) /\
  carries_txt (last_set req_ServiceId ops) (ac_ServiceId ac) (ss_ServiceType s) /\
  carries_txt (last_set req_ValidTime ops) vd (ss_ExpireTime s) /\
  carries_txt (last_set req_AtTime ops) [] (ss_ScheduleTime s) /\
  ss_SPNumber s = ac_SmsDisplayNo ac ++ text_or_empty (last_set req_SpSubNo ops) /\
  ss_FeeType s = 0 /\ ss_FeeValue s = [].
Proof.
  intros ac phones content ops vd g q msgs s E Hin.
  assert (G : exists c ud qq b, s = sgip_part ac (LoadMtOptions ops) phones vd c ud qq b).
  { unfold sgip_NewSubmit in E. destruct (MsgSlices g (MsgFmt content) content) as [parts| |]; try discriminate.
    cbn [bind] in E.
    assert (P : forall l i, In s (sgip_parts (fun i b => sgip_part ac (LoadMtOptions ops) phones vd (MsgFmt content) 1 (q i) b) i l) ->
      exists c ud qq b, s = sgip_part ac (LoadMtOptions ops) phones vd c ud qq b).
    { induction l as [|x r IH]; intros i Hi; cbn in Hi; [contradiction|]. destruct Hi as [Hi|Hi]; [|eauto].
      subst s. repeat eexists. }
    destruct parts as [|b0 [|b1 r]]; injection E as <-.
    - contradiction.
    - destruct Hin as [<-|[]]. repeat eexists.
    - exact (P (b0 :: b1 :: r) 0 Hin). }
  destruct G as (c & ud & qq & b & ->).
  destruct (C25_last_wins ops) as (L1 & L2 & L3 & L4 & L5 & L6 & L7 & L8 & L9 & L10 & L11 & L12).
  unfold sgip_part. cbn [ss_ReportFlag ss_Priority ss_ServiceType ss_ExpireTime ss_ScheduleTime ss_SPNumber ss_FeeType ss_FeeValue].
  rewrite L6, L9, L10, L11.
  split. { apply ranged_carries; auto; unfold flag; intros; lia. }
  split. { apply ranged_carries; auto; unfold level; intros; lia. }
  split; [apply text_carries|]. split; [apply text_carries|].
  split. { pose proof (text_carries (last_set req_AtTime ops) []) as T. unfold opt_txt in T.
    destruct (text_or_empty (last_set req_AtTime ops)); exact T. }
  split; [|auto]. destruct (text_or_empty (last_set req_SpSubNo ops)); [rewrite app_nil_r|]; reflexivity.
Qed.

Lemma sm_built gbe ac phones content seq ops now g nxt msgs s :
  smgp_NewSubmit gbe ac phones content seq ops now g nxt = Ok msgs -> In s msgs ->
  exists q len ml b tl, s = sm_base ac phones q (LoadMtOptions ops) now len ml b tl.
Proof.
  intros E Hin. unfold smgp_NewSubmit in E. destruct (gbe content) as [data|]; [|injection E as <-; contradiction].
  destruct (ToTPUDHISlices g data 140) as [parts| |]; try discriminate. cbn [bind] in E.
  assert (P : forall ph tot l i, In s (sm_parts (fun q len ml b tl => sm_base ac phones q (LoadMtOptions ops) now len ml b tl) ph tot seq nxt i l) ->
      exists q len ml b tl, s = sm_base ac phones q (LoadMtOptions ops) now len ml b tl).
  { intros ph tot. induction l as [|x r IH]; intros i Hi; cbn in Hi; [contradiction|]. destruct Hi as [Hi|Hi]; [|eauto].
    subst s. repeat eexists. }
  destruct parts as [|b0 [|b1 r]]; injection E as <-.
  - contradiction.
  - destruct Hin as [<-|[]]. repeat eexists.
  - exact (P _ _ (b0 :: b1 :: r) 0 Hin).
Qed.

(** SMGP: what does work - service id, schedule time, sub-number, and need-report and
    priority if asked for with a non-zero allowed value. *)
Theorem C26_smgp_partial : forall gbe ac phones content seq ops now g nxt msgs s,
  smgp_NewSubmit gbe ac phones content seq ops now g nxt = Ok msgs -> In s msgs ->
  carries_txt (last_set req_ServiceId ops) (ac_ServiceId ac) (ms_serviceID s) /\
  carries_txt (last_set req_AtTime ops) [] (ms_atTime s) /\
  ms_srcTermID s = ac_SmsDisplayNo ac ++ text_or_empty (last_set req_SpSubNo ops) /\
  (last_set req_NeedReport ops = Some 1 -> ms_needReport s = 1) /\
  (forall t, last_set req_MsgLevel ops = Some t -> level t -> t <> 0 -> ms_priority s = t).
Proof.
  intros gbe ac phones content seq ops now g nxt msgs s E Hin.
  destruct (sm_built _ _ _ _ _ _ _ _ _ _ _ E Hin) as (q & len & ml & b & tl & ->).
  destruct (C25_last_wins ops) as (L1 & L2 & L3 & L4 & L5 & L6 & L7 & L8 & L9 & L10 & L11 & L12).
  unfold sm_base. cbn [ms_serviceID ms_atTime ms_srcTermID ms_needReport ms_priority]. rewrite L6, L10, L11.
  split; [apply text_carries|].
  split. { pose proof (text_carries (last_set req_AtTime ops) []) as T. unfold opt_txt in T.
    destruct (text_or_empty (last_set req_AtTime ops)); exact T. }
  split. { destruct (text_or_empty (last_set req_SpSubNo ops)); [rewrite app_nil_r|]; reflexivity. }
  split.
  - intros R. rewrite R in L1. destruct L1 as [L1 _]. rewrite L1 by (right; reflexivity). reflexivity.
  - intros t R Ht Hz. rewrite R in L2. destruct L2 as [L2 _]. rewrite L2 by exact Ht. unfold sm_opt.
    destruct (t =? 0) eqn:Z0; [apply Z.eqb_eq in Z0; contradiction|reflexivity].
Qed.

(** SMGP: what does not.  Without an option the marker 15 goes out instead of the account's
    need-report and priority; asking for 0 gives the account's value; fee type, fee code and
    valid time asked for are ignored; the valid time is the moment of sending. *)
Theorem C26_refuted : forall gbe ac phones content seq ops now g nxt msgs s,
  smgp_NewSubmit gbe ac phones content seq ops now g nxt = Ok msgs -> In s msgs ->
  (last_set req_NeedReport ops = None -> ms_needReport s = 15) /\
  (last_set req_MsgLevel ops = None -> ms_priority s = 15) /\
  (last_set req_NeedReport ops = Some 0 -> ms_needReport s = ac_NeedReport ac) /\
  (last_set req_MsgLevel ops = Some 0 -> ms_priority s = ac_DefaultMsgLevel ac) /\
  ms_feeType s = ac_FeeType ac /\ ms_feeCode s = ac_FeeCode ac /\ ms_validTime s = now.
Proof.
  intros gbe ac phones content seq ops now g nxt msgs s E Hin.
  destruct (sm_built _ _ _ _ _ _ _ _ _ _ _ E Hin) as (q & len & ml & b & tl & ->).
  destruct (C25_last_wins ops) as (L1 & L2 & _).
  unfold sm_base. cbn [ms_needReport ms_priority ms_feeType ms_feeCode ms_validTime].
  split. { intros R. rewrite R in L1. cbn in L1. rewrite L1. reflexivity. }
  split. { intros R. rewrite R in L2. cbn in L2. rewrite L2. reflexivity. }
  split. { intros R. rewrite R in L1. destruct L1 as [L1 _]. rewrite L1 by (left; reflexivity). reflexivity. }
  split. { intros R. rewrite R in L2. destruct L2 as [L2 _]. rewrite L2 by (unfold level; lia). reflexivity. }
  auto.
Qed.

(** Options given and not given, in the three protocols, for one account. *)
Definition opt_demo : list mtopt := [OMsgLevel 3; OSpSubNo [55]; OFeeCode [57]].
Example C26_case_cmpp :
  (m <- NewSubmit ac_demo [[49;51]] [72;105] 5 opt_demo [] 0 (fun _ => 6) ;;
   Ok (map (fun s => (sb_msgLevel s, sb_registeredDel s =? ac_NeedReport ac_demo, sb_feeCode s)) m)) = Ok [(3, true, [57])].
Proof. vm_compute. reflexivity. Qed.
Example C26_case_sgip :
  (m <- sgip_NewSubmit ac_demo [[49;51]] [72;105] opt_demo [50] 0 (fun _ => (1, 2, 3)) ;;
   Ok (map (fun s => (ss_Priority s, ss_ReportFlag s =? ac_NeedReport ac_demo, ss_ExpireTime s)) m)) = Ok [(3, true, [50])].
Proof. vm_compute. reflexivity. Qed.
Example C26_case_smgp :
  (m <- smgp_NewSubmit Some ac_demo [[49;51]] [72;105] 5 opt_demo [50] 0 (fun _ => 6) ;;
   Ok (map (fun s => (ms_priority s, ms_needReport s, ms_validTime s)) m)) = Ok [(3, 15, [50])].
Proof. vm_compute. reflexivity. Qed.
Print Assumptions C26_cmpp.
Print Assumptions C26_sgip_partial.
Print Assumptions C26_smgp_partial.
Print Assumptions C26_refuted.
