From Verif Require Import Base UtilsModel SpecText UtilsProofs OptionsModel TlvModel CmppModel SgipModel SmgpModel FrameModel SeqProofs CmppBuildProofs SmgpProofs PropSgip PropLogins SpecClient ClientModel.
Lemma copy_open_keep n f lo s f' : copy_open f lo s = Ok f' -> Z.of_nat n <= lo -> firstn n f' = firstn n f /\ zlen f' = zlen f.
Proof. unfold copy_open. apply copy_keep. Qed.
Lemma put_open_keep n k f lo hi v f' : put_be k f lo hi v = Ok f' -> Z.of_nat n <= lo -> firstn n f' = firstn n f.
Proof.
  unfold put_be. destruct (_ && _ && _ && _) eqn:G; [|discriminate]. intros H L. assert (X : splice f lo (be k v) = f') by congruence. subst f'.
  rewrite !andb_true_iff in G. unfold splice, zlen in *. rewrite firstn_app, firstn_firstn, firstn_length. replace (min n (Z.to_nat lo)) with n by lia.
  replace (n - _)%nat with 0%nat by lia. cbn [firstn]. apply app_nil_r.
Qed.
Lemma put_users_keep n l : forall f i f' i', put_users f i l = Ok (f', i') -> Z.of_nat n <= i -> firstn n f' = firstn n f /\ i <= i'.
Proof.
  induction l as [|x l IH]; cbn [put_users]; intros f i f' i' H L.
  - assert (f' = f /\ i' = i) as [-> ->] by (split; congruence). split; [reflexivity|lia].
  - apply bind_ok in H as (g & G & H). apply IH in H; [|lia]. apply (copy_open_keep n) in G; [|lia]. destruct H as [-> ?], G as [-> ?]. split; [reflexivity|lia].
Qed.
Lemma put_terms_keep n l : forall f i f' i', put_terms f i l = Ok (f', i') -> Z.of_nat n <= i -> firstn n f' = firstn n f /\ i <= i'.
Proof.
  induction l as [|x l IH]; cbn [put_terms]; intros f i f' i' H L.
  - assert (f' = f /\ i' = i) as [-> ->] by (split; congruence). split; [reflexivity|lia].
  - apply bind_ok in H as (g & G & H). apply IH in H; [|lia]. apply (copy_keep n) in G; [|lia]. destruct H as [-> ?], G as [-> ?]. split; [reflexivity|lia].
Qed.
Lemma put_fit k f lo hi v f' : put_be k f lo hi v = Ok f' -> hi <= zlen f.
Proof. unfold put_be. destruct (_ && _ && _ && _) eqn:G; [|discriminate]. intros _. rewrite !andb_true_iff in G. lia. Qed.
Ltac stepk n H :=
  lazymatch type of H with
  | bind (set_at _ _ _) _ = Ok _ => let f := fresh "f" in let E := fresh "E" in apply bind_ok in H as (f & E & H); apply (set_keep n) in E; [destruct E as [E _]|lia]
  | bind (copy_at _ _ _ _) _ = Ok _ => let f := fresh "f" in let E := fresh "E" in apply bind_ok in H as (f & E & H); apply (copy_keep n) in E; [destruct E as [E _]|lia]
  | bind (copy_open _ _ _) _ = Ok _ => let f := fresh "f" in let E := fresh "E" in apply bind_ok in H as (f & E & H); apply (copy_open_keep n) in E; [destruct E as [E _]|lia]
  | bind (put_be _ _ _ _ _) _ = Ok _ => let f := fresh "f" in let E := fresh "E" in apply bind_ok in H as (f & E & H); apply (put_open_keep n) in E; [|lia]
  end.
Lemma head_bytes h f : head_Encode h = Ok f -> firstn 4 (skipn 8 f) = be 4 (h_seq h) /\ 12 <= zlen f.
Proof.
  unfold head_Encode. intros H. apply bind_ok in H as (f1 & E1 & H). apply bind_ok in H as (f2 & E2 & H).
  pose proof (put_fit _ _ _ _ _ _ H). destruct (put_keep 8 _ _ _ _ _ _ H) as [_ K]; [lia|lia|]. split; [|lia]. exact (put_here _ _ _ _ _ _ H eq_refl).
Qed.
Lemma smhead_bytes h f : smhead_Encode h = Ok f -> firstn 4 (skipn 8 f) = be 4 (h_seq h) /\ 12 <= zlen f.
Proof.
  unfold smhead_Encode. intros H. apply bind_ok in H as (f1 & E1 & H). apply bind_ok in H as (f2 & E2 & H).
  pose proof (put_fit _ _ _ _ _ _ H). destruct (put_keep 8 _ _ _ _ _ _ H) as [_ K]; [lia|lia|]. split; [|lia]. exact (put_here _ _ _ _ _ _ H eq_refl).
Qed.
Lemma shead_bytes h f : shead_Encode h = Ok f -> firstn 4 (skipn 12 f) = be 4 (snd (fst (sh_seq h))) /\ firstn 4 (skipn 16 f) = be 4 (snd (sh_seq h)) /\ 20 <= zlen f.
Proof.
  unfold shead_Encode. destruct (sh_seq h) as [[a b] c]. intros H. apply bind_ok in H as (f1 & E1 & H). apply bind_ok in H as (f2 & E2 & H). apply bind_ok in H as (f3 & E3 & H). apply bind_ok in H as (f4 & E4 & H).
  pose proof (put_fit _ _ _ _ _ _ H). destruct (put_keep 16 _ _ _ _ _ _ H) as [K1 K]; [lia|lia|].
  pose proof (put_here _ _ _ _ _ _ E4 eq_refl) as X. change (Z.to_nat 12) with 12%nat in X. split; [|split; [exact (put_here _ _ _ _ _ _ H eq_refl)|lia]].
  rewrite window_firstn in *. cbn [Nat.add fst snd] in *. congruence.
Qed.
Lemma cmpp_key s b : Submit_Encode s = Ok b -> 0 <= h_seq (sb_h s) < 2 ^ 32 -> wire_key P_CMPP b = h_seq (sb_h s).
Proof.
  intros H R. unfold Submit_Encode in H. apply bind_ok in H as (f0 & F0 & H). apply head_bytes in F0 as [F0 _].
  cbn [wire_key]. enough (X : firstn 12 b = firstn 12 f0) by (rewrite window_firstn in *; cbn [Nat.add] in *; rewrite X, F0; apply (unbe_be_small 4); exact R).
  repeat stepk 12%nat H. apply bind_ok in H as ([g i] & G & H). assert (G' : firstn 12 g = firstn 12 f0 /\ 35 <= i).
  { destruct (is_v3 (sb_version s)); repeat stepk 12%nat G; injection G as <- <-; split; try lia; congruence. }
  clear G. destruct G' as [G GI]. cbv zeta in H. repeat stepk 12%nat H.
  pose proof (zlen_nonneg (sb_termIds s)). repeat stepk 12%nat H. apply bind_ok in H as ([g' i'] & G' & H).
  assert (X : firstn 12 g' = firstn 12 f0 /\ 35 <= i').
  { destruct (is_v3 (sb_version s)); repeat stepk 12%nat G'; injection G' as <- <-; split; try lia; congruence. }
  destruct X as [X XI]. repeat stepk 12%nat H. pose proof (zlen_nonneg (sb_msgContent s)). destruct (is_v3 (sb_version s)).
  - apply (copy_keep 12) in H; [destruct H as [H _]|lia]. congruence.
  - injection H as <-. congruence.
Qed.
Lemma sgip_key s b : SSubmit_Encode s = Ok b -> (let '(x, y, z) := sh_seq (ss_h s) in 0 <= x < 2 ^ 32 /\ 0 <= y < 2 ^ 32 /\ 0 <= z < 2 ^ 32) ->
  wire_key P_SGIP b = Sequence2Uint64 (sh_seq (ss_h s)).
Proof.
  intros H R. unfold SSubmit_Encode in H. apply bind_ok in H as (f0 & F0 & H). apply shead_bytes in F0 as (A & B & L).
  assert (X : firstn 20 b = firstn 20 f0).
  { repeat stepk 20%nat H. apply bind_ok in H as ([g i] & G & H). apply (put_users_keep 20) in G; [|lia]. destruct G as [G GI]. cbv zeta in H.
    repeat stepk 20%nat H. pose proof (zlen_nonneg (ss_Content s)). apply (copy_open_keep 20) in H; [destruct H as [H _]|lia]. congruence. }
  cbn [wire_key]. destruct (sh_seq (ss_h s)) as [[x y] z]. cbn [fst snd] in *. cbn [Sequence2Uint64].
  rewrite !window_firstn in *. cbn [Nat.add] in *. rewrite X.
  assert (Y : skipn 12 (firstn 20 f0) = be 4 y ++ be 4 z).
  { rewrite <- A, <- B. rewrite <- (firstn_skipn 4 (skipn 12 (firstn 20 f0))). f_equal.
    - rewrite (window_firstn (firstn 20 f0) 12 4), firstn_firstn. reflexivity.
    - rewrite skipn_skipn. reflexivity. }
  rewrite Y, unbe_app, (unbe_be_small 4 y), (unbe_be_small 4 z), zlen_be by (change (256 ^ Z.of_nat 4) with (2 ^ 32); lia).
  change (256 ^ Z.of_nat 4) with (2 ^ 32). rewrite Z.shiftl_mul_pow2 by lia. rewrite lor_disjoint by lia. reflexivity.
Qed.

Definition tlvs_ok (o : option (list tlv)) : Prop := match o with None => True | Some l => snd (TlvWrite l) = None end.
Lemma smgp_key s b : MSubmit_Encode s = Ok b -> 0 <= h_seq (ms_h s) < 2 ^ 32 -> zlen (ms_destTermID s) = ms_count s -> tlvs_ok (ms_tlv s) -> 0 <= ms_msgLength s ->
  wire_key P_SMGP b = h_seq (ms_h s).
Proof.
  intros H R N T ML. unfold MSubmit_Encode in H. rewrite N, Z.eqb_refl in H. cbn [negb] in H. apply bind_ok in H as (f0 & F0 & H). apply smhead_bytes in F0 as [F0 _].
  cbn [wire_key]. enough (X : firstn 12 b = firstn 12 f0) by (rewrite window_firstn in *; cbn [Nat.add] in *; rewrite X, F0; apply (unbe_be_small 4); exact R).
  repeat stepk 12%nat H. apply bind_ok in H as ([g i] & G & H). apply (put_terms_keep 12) in G; [|lia]. destruct G as [G GI]. cbv zeta in H.
  repeat stepk 12%nat H. destruct (ms_tlv s) as [tl|].
  - unfold tlvs_ok in T. destruct (TlvWrite tl) as [w [e|]]; [discriminate T|]. apply (copy_keep 12) in H; [destruct H as [H _]|lia]. congruence.
  - injection H as <-. congruence.
Qed.
Definition keyed (p : proto) (x : res bytes * Z) : Prop := forall b, fst x = Ok b -> wire_key p b = snd x.
Lemma u32_range x : 0 <= u32 x < 2 ^ 32.
Proof. unfold u32. apply Z.mod_pos_bound. reflexivity. Qed.
Lemma cmpp_part_seq bs s0 ni tot u n q b : h_seq (sb_h (cmpp_part bs s0 ni tot u n q b)) = q.
Proof. destruct s0; reflexivity. Qed.
Lemma cmpp_parts_seq bs s0 ni tot nx ps : 0 <= h_seq (sb_h s0) < 2 ^ 32 -> (forall i, 0 <= nx i < 2 ^ 32) -> forall i, Forall (fun s => 0 <= h_seq (sb_h s) < 2 ^ 32) (cmpp_parts bs s0 ni tot nx i ps).
Proof.
  intros A B. induction ps as [|x ps IH]; intros i; cbn [cmpp_parts]; constructor; [|apply IH]. rewrite cmpp_part_seq. destruct (i =? 0); [exact A|apply B].
Qed.
Lemma sgip_parts_all (P : ssubmit -> Prop) mk ps : (forall i b, P (mk i b)) -> forall i, Forall P (sgip_parts mk i ps).
Proof. intros A. induction ps as [|x ps IH]; intros i; cbn [sgip_parts]; constructor; [apply A|apply IH]. Qed.
Lemma sm_parts_all (P : msubmit -> Prop) mk n tot sq nx ps : (forall i len b, P (mk (if i =? 0 then sq else u32 (nx i)) len (u8 (zlen b)) b (Some (sm_tlvs tot i)))) -> forall i, Forall P (sm_parts mk n tot sq nx i ps).
Proof. intros A. induction ps as [|x ps IH]; intros i; cbn [sm_parts]; constructor; [apply A|apply IH]. Qed.
Lemma segments_keyed p gbe ac phone msg ops d parts : segments p gbe ac phone msg ops d = Ok parts -> Forall (keyed p) parts.
Proof.
  destruct p; cbn [segments]; intros H; apply bind_ok in H as (l & E & H); injection H as <-; apply Forall_forall; intros [e k] I; apply in_map_iff in I as (s & X & I); injection X as <- <-; intros b B; cbn [fst snd] in *.
  - apply cmpp_key; [exact B|]. unfold NewSubmit in E. apply bind_ok in E as (ids & _ & E). cbv zeta in E. apply bind_ok in E as (ps & _ & E).
    destruct ps as [|x [|y ps]].
    + injection E as <-. destruct I.
    + injection E as <-. destruct I as [<-|[]]. unfold cmpp_part. cbn [sb_h h_seq]. apply u32_range.
    + match type of E with Ok (cmpp_parts ?bs ?s0 ?ni ?tot ?nx _ ?ps) = _ => pose proof (cmpp_parts_seq bs s0 ni tot nx ps (u32_range _) (fun i => u32_range _) 0) as Q end.
      assert (Z : Ok l = Ok l) by reflexivity. rewrite <- E in Z at 1. clear E. injection Z as <-. rewrite Forall_forall in Q. apply Q. exact I.
  - apply sgip_key; [exact B|]. unfold sgip_NewSubmit in E. cbv zeta in E. apply bind_ok in E as (ps & _ & E).
    destruct ps as [|x [|y ps]].
    + injection E as <-. destruct I.
    + injection E as <-. destruct I as [<-|[]]. unfold sgip_part. cbn [ss_h sh_seq]. destruct (d_q d 0) as [[? ?] ?]. repeat split; apply u32_range.
    + match type of E with Ok (sgip_parts ?mk _ ?ps) = _ => pose proof (sgip_parts_all (fun s => let '(x, y, z) := sh_seq (ss_h s) in 0 <= x < 2 ^ 32 /\ 0 <= y < 2 ^ 32 /\ 0 <= z < 2 ^ 32) mk ps) as Q end.
      injection E as <-. assert (Q' := fun A => Q A 0). rewrite Forall_forall in Q'. apply Q'; [|exact I].
      intros i c. unfold sgip_part. cbn [ss_h sh_seq]. destruct (d_q d i) as [[? ?] ?]. repeat split; apply u32_range.
  - unfold smgp_NewSubmit in E. cbv zeta in E. destruct (gbe msg) as [data|]; [|injection E as <-; destruct I]. apply bind_ok in E as (ps & _ & E).
    assert (G : 0 <= h_seq (ms_h s) < 2 ^ 32 /\ zlen (ms_destTermID s) = ms_count s /\ tlvs_ok (ms_tlv s) /\ 0 <= ms_msgLength s).
    { destruct ps as [|x [|y ps]].
      + injection E as <-. destruct I.
      + injection E as <-. destruct I as [<-|[]]. unfold sm_base. cbn [ms_h h_seq ms_destTermID ms_count ms_tlv ms_msgLength].
        split; [apply u32_range|]. split; [reflexivity|]. split; [exact Logic.I|]. unfold u8. apply Z.mod_pos_bound. reflexivity.
      + match type of E with Ok (sm_parts ?mk ?n ?tot ?sq ?nx _ ?ps) = _ =>
          pose proof (sm_parts_all (fun s => 0 <= h_seq (ms_h s) < 2 ^ 32 /\ zlen (ms_destTermID s) = ms_count s /\ tlvs_ok (ms_tlv s) /\ 0 <= ms_msgLength s) mk n tot sq nx ps) as Q end.
        injection E as <-. assert (Q' := fun A => Q A 0). clear Q. rewrite Forall_forall in Q'. apply Q'; [|exact I].
        intros i len c. unfold sm_base. cbn [ms_h h_seq ms_destTermID ms_count ms_tlv ms_msgLength].
        split; [destruct (i =? 0); apply u32_range|]. split; [reflexivity|]. split; [reflexivity|]. unfold u8. apply Z.mod_pos_bound. reflexivity. }
    destruct G as (G1 & G2 & G3 & G4). apply smgp_key; assumption.
Qed.

(** ** What the handlers do to the caches *)
Definition heff (p : proto) (cmd seq : Z) (f : bytes) (now : Z) (ca ca' : caches) : Prop :=
  match p with
  | P_SGIP => if cmd =? 2147483651
              then exists r, srsp_Decode cmd seq f = Ok r /\ ca' = answered ca (U64 (Sequence2Uint64 (sh_seq (sr_h r)))) (sr_status r) (Sequence2String (sh_seq (sr_h r))) now
              else ca' = ca
  | _ => ca' = ca \/ (exists k code mid, ca' = answered ca (U32 k) code mid now) \/ (exists k txt, zlen k <> 28 /\ ca' = reported ca k txt now)
  end.
Lemma Close_keeps s s1 : Close s = Ok s1 -> cs_p s1 = cs_p s.
Proof. unfold Close. destruct (cs_stat s); try destruct (cs_con s); intros H; try discriminate H; injection H as <-; reflexivity. Qed.
Lemma reply_ok s e b : reply_with s e = Ok b -> e = Ok b /\ cs_con s = true.
Proof. unfold reply_with. intros H. apply bind_ok in H as (x & E & H). destruct (cs_con s); [|discriminate H]. injection H as <-. auto. Qed.
Lemma mdeliver_id gbd v seq f d r : MDeliver_Decode gbd v seq f = Ok d -> md_report d = Some r -> zlen (mp_id r) = 10.
Proof.
  unfold MDeliver_Decode. intros H R. repeat (let x := fresh "x" in let E := fresh "E" in apply bind_ok in H as (x & E & H)). 
  destruct x6 as [c rp]. injection H as <-. cbn [md_report] in R. subst rp. destruct (x0 =? 1).
  - apply bind_ok in E6 as (b & B & E6). apply bind_ok in E6 as (r' & R & E6). injection E6 as _ <-. unfold mreport_Decode in R.
    repeat (let x := fresh "x" in let E := fresh "E" in apply bind_ok in R as (x & E & R)). injection R as <-. cbn [mp_id]. match goal with H : slice b 3 13 = _ |- _ => apply slice_len in H; lia end.
  - apply bind_ok in E6 as (b & B & E6). destruct (gbd b); discriminate E6.
Qed.
Lemma handler_eff gbd s ca cmd seq f o s1 ca1 out : c_onTraffic gbd s ca cmd seq f o = Ok (s1, ca1, out) -> cs_p s1 = cs_p s /\ heff (cs_p s) cmd seq f (g_now o) ca ca1.
Proof.
  unfold c_onTraffic. destruct (cs_p s) eqn:P; cbn [heff]; intros H.
  - unfold onTrafficCmpp in H. cbv zeta in H. rewrite <- P.
    destruct (cmd =? RESP + CONNECT).
    { inv_bind H. destruct (cr_status _ =? 0); [|discriminate H]. injection H as <- <- <-. auto. }
    destruct (cmd =? ACTIVE_TEST).
    { unfold answer_or_close, closing in H. inv_bind H. destruct (g_err o); [|injection H as <- <- <-; auto]. inv_bind H. injection H as <- <- <-. apply Close_keeps in E1. auto. }
    destruct (cmd =? RESP + ACTIVE_TEST). { injection H as <- <- <-; auto. }
    destruct (cmd =? TERMINATE). { unfold closing in H. inv_bind H. injection H as <- <- <-. apply Close_keeps in E1. auto. }
    destruct (cmd =? RESP + TERMINATE). { unfold closing in H. inv_bind H. injection H as <- <- <-. apply Close_keeps in E. auto. }
    destruct (cmd =? RESP + SUBMIT). { inv_bind H. injection H as <- <- <-. split; [reflexivity|]. right. left. eauto. }
    destruct (cmd =? DELIVER).
    { inv_bind H. injection H as <- <- <-. split.
      - destruct (g_err o); [apply Close_keeps in E2; exact E2|injection E2 as <-; reflexivity].
      - destruct (dl_report _); [|left; reflexivity]. right. right. eexists _, _. split; [|reflexivity]. apply Z.eqb_neq. reflexivity. }
    injection H as <- <- <-; auto.
  - unfold onTrafficSgip in H. cbv zeta in H. rewrite <- P. change (RESP + SG_SUBMIT) with 2147483651 in H. destruct (cmd =? 2147483651) eqn:C.
    { apply Z.eqb_eq in C. subst cmd. change (2147483651 =? RESP + SG_BIND) with false in H. change (2147483651 =? SG_UNBIND) with false in H. change (2147483651 =? RESP + SG_UNBIND) with false in H. cbv iota in H.
      inv_bind H. injection H as <- <- <-. split; [reflexivity|]. eauto. }
    destruct (cmd =? RESP + SG_BIND). { inv_bind H. destruct (sr_status _ =? 0); [|discriminate H]. injection H as <- <- <-. auto. }
    destruct (cmd =? SG_UNBIND). { unfold closing in H. inv_bind H. injection H as <- <- <-. apply Close_keeps in E1. auto. }
    destruct (cmd =? RESP + SG_UNBIND). { unfold closing in H. inv_bind H. injection H as <- <- <-. apply Close_keeps in E0. auto. }
    injection H as <- <- <-; auto.
  - unfold onTrafficSmgp in H. cbv zeta in H. rewrite <- P.
    destruct (cmd =? RESP + SM_LOGIN). { inv_bind H. destruct (lr_status _ =? 0); [|discriminate H]. injection H as <- <- <-. auto. }
    destruct (cmd =? SM_ACTIVE_TEST).
    { unfold answer_or_close, closing in H. inv_bind H. destruct (g_err o); [|injection H as <- <- <-; auto]. inv_bind H. injection H as <- <- <-. apply Close_keeps in E1. auto. }
    destruct (cmd =? RESP + SM_ACTIVE_TEST). { injection H as <- <- <-; auto. }
    destruct (cmd =? SM_EXIT). { unfold closing in H. inv_bind H. injection H as <- <- <-. apply Close_keeps in E1. auto. }
    destruct (cmd =? RESP + SM_EXIT). { unfold closing in H. inv_bind H. injection H as <- <- <-. apply Close_keeps in E. auto. }
    destruct (cmd =? RESP + SM_SUBMIT). { inv_bind H. injection H as <- <- <-. split; [reflexivity|]. right. left. eauto. }
    destruct (cmd =? SM_DELIVER).
    { apply bind_ok in H as (v & V & H). destruct (MDeliver_Decode gbd v seq f) as [d|e|] eqn:D; [| |discriminate H].
      - inv_bind H. injection H as <- <- <-. split.
        + destruct (g_err o); [apply Close_keeps in E0; exact E0|injection E0 as <-; reflexivity].
        + destruct (md_report d) as [r|] eqn:R; [|left; reflexivity]. right. right. eexists _, _. split; [|reflexivity]. rewrite zlen_hex, (mdeliver_id _ _ _ _ _ _ D R). lia.
      - unfold closing in H. inv_bind H. injection H as <- <- <-. apply Close_keeps in E. auto. }
    injection H as <- <- <-; auto.
Qed.

(** ** Invariants of every run *)
Definition strip (x : nat * bytes * Z) : bytes * Z := (snd (fst x), snd x).
Definition view_of (r : result) : bytes * Z := (rt_phone r, rt_seq r).
Definition hv (t : nat) (log : list cobs) := fold_left (hv_step t) log ([], []).
Definition look (log : list cobs) (l : list nat) : list (option (bytes * Z)) := map (fun p => nth_error (map strip (recs log)) p) l.
Definition owned (log : list cobs) (t : nat) (l : list nat) : Prop := forall p, In p l -> exists ph k, nth_error (recs log) p = Some (t, ph, k).
Definition sender_ok (protos : list proto) (log : list cobs) (t : nat) (s : sender) : Prop :=
  owned log t (sn_res s) /\
  match sn_ph s with
  | SPart i _ parts done => (exists p, nth_error protos i = Some p /\ Forall (keyed p) parts)
      /\ owned log t done /\ look log (sn_res s) = map Some (fst (hv t log)) /\ look log done = map Some (snd (hv t log))
  | SWrote i _ b key parts done => (exists p, nth_error protos i = Some p /\ wire_key p b = key /\ Forall (keyed p) parts)
      /\ owned log t done /\ look log (sn_res s) = map Some (fst (hv t log)) /\ look log done = map Some (snd (hv t log))
  | _ => look log (sn_res s) = map Some (fst (hv t log) ++ snd (hv t log))
  end.
Definition protos (c : cstate) : list proto := map cs_p (ct_sess c).
Record sinv (c : cstate) : Prop := {
  si_heap : map view_of (ca_heap (ct_ca c)) = map strip (recs (ct_log c));
  si_seq : Forall (fun e => exists r, fst e = U64 (rt_seq r) /\ nth_error (ca_heap (ct_ca c)) (snd e) = Some r) (ca_seq (ct_ca c));
  si_msg : Forall (fun e => zlen (fst e) = 28) (ca_msg (ct_ca c));
  si_rep : Forall (fun r => rt_report r = [] /\ rt_rept r = 0) (ca_heap (ct_ca c));
  si_snd : forall t s, nth_error (ct_send c) t = Some s -> sender_ok (protos c) (ct_log c) t s;
  si_new : forall t, (length (ct_send c) <= t)%nat -> hv t (ct_log c) = ([], []);
  si_qry : forall q l, In (q, l) (ca_query (ct_ca c)) -> exists t s, nth_error (ct_send c) t = Some s /\ sn_ph s = SDone /\ sn_q s = q /\ sn_res s = l;
  si_qid : forall t s p r, nth_error (ct_send c) t = Some s -> sn_ph s = SDone -> In p (sn_res s) -> nth_error (ca_heap (ct_ca c)) p = Some r -> rt_qid r = sn_q s }.

Lemma nth_upd {A} (l : list A) t x y : nth_error l t = Some y -> forall t', nth_error (firstn t l ++ [x] ++ skipn (S t) l) t' = if (t' =? t)%nat then Some x else nth_error l t'.
Proof.
  revert t. induction l as [|z l IH]; intros t H t'; [destruct t; discriminate H|]. destruct t as [|t]; cbn [nth_error] in H.
  - destruct t'; reflexivity.
  - destruct t' as [|t']; [reflexivity|]. cbn [firstn app nth_error Nat.eqb]. exact (IH t H t').
Qed.
Lemma len_upd {A} (l : list A) t x y : nth_error l t = Some y -> length (firstn t l ++ [x] ++ skipn (S t) l) = length l.
Proof. intros H. assert (t < length l)%nat by (apply nth_error_Some; congruence). rewrite !app_length, firstn_length, skipn_length. cbn [length]. lia. Qed.
Lemma map_upd {A B} (f : A -> B) (l : list A) t x y : nth_error l t = Some y -> f x = f y -> map f (firstn t l ++ [x] ++ skipn (S t) l) = map f l.
Proof.
  revert t. induction l as [|z l IH]; intros t H E; [destruct t; discriminate H|]. destruct t as [|t]; cbn [nth_error] in H.
  - injection H as ->. cbn. rewrite E. reflexivity.
  - cbn [firstn app map]. f_equal. exact (IH t H E).
Qed.
Lemma upd_heap_map {B} (g : result -> B) h p f : (forall r, g (f r) = g r) -> map g (upd_heap h p f) = map g h.
Proof. intros E. unfold upd_heap. destruct (nth_error h p) as [r|] eqn:N; [|reflexivity]. apply (map_upd g h p (f r) r N (E r)). Qed.
Lemma upd_heap_nth h p f p' : nth_error (upd_heap h p f) p' = if (p' =? p)%nat then option_map f (nth_error h p) else nth_error h p'.
Proof.
  unfold upd_heap. destruct (nth_error h p) as [r|] eqn:N.
  - apply nth_upd with (1 := N).
  - destruct (p' =? p)%nat eqn:E; [apply Nat.eqb_eq in E; subst; exact N|reflexivity].
Qed.
Lemma protos_put c i ss s : nth_error (ct_sess c) i = Some ss -> cs_p s = cs_p ss -> protos (put_sess c i s) = protos c.
Proof. intros H E. unfold protos, put_sess. cbn [ct_sess]. apply (map_upd cs_p _ _ _ _ H E). Qed.
Lemma protos_used c i now : protos (used c i now) = protos c.
Proof. unfold used. destruct (nth_error (ct_sess c) i) eqn:N; [|reflexivity]. apply (protos_put _ _ _ _ N). reflexivity. Qed.
Lemma used_rest c i now : ct_ca (used c i now) = ct_ca c /\ ct_send (used c i now) = ct_send c /\ ct_log (used c i now) = ct_log c.
Proof. unfold used. destruct (nth_error (ct_sess c) i); repeat split. Qed.
Lemma hv_app t a b : hv t (a ++ b) = fold_left (hv_step t) b (hv t a).
Proof. unfold hv. apply fold_left_app. Qed.
Lemma recs_app a b : recs (a ++ b) = recs a ++ recs b.
Proof. unfold recs. apply flat_map_app. Qed.
Lemma look_ext log l x v : look log x = map Some v -> look (log ++ l) x = map Some v.
Proof.
  intros H. rewrite <- H. unfold look in *. apply map_ext_in. intros p I. rewrite recs_app, map_app. apply nth_error_app1.
  apply nth_error_Some. intros N. apply (in_map (fun p => nth_error (map strip (recs log)) p)) in I. rewrite N, H in I. apply in_map_iff in I as (? & ? & ?). discriminate.
Qed.
Lemma owned_ext log l t x : owned log t x -> owned (log ++ l) t x.
Proof.
  intros H p I. destruct (H p I) as (ph & k & E). exists ph, k. rewrite recs_app, nth_error_app1; [exact E|]. apply nth_error_Some. congruence.
Qed.
Lemma sender_ok_ext ps log l t s : sender_ok ps log t s -> hv t (log ++ l) = hv t log -> sender_ok ps (log ++ l) t s.
Proof.
  intros [O H] E. split; [apply owned_ext; exact O|]. rewrite E. destruct (sn_ph s).
  - apply look_ext. exact H.
  - destruct H as (A & B & C & D). split; [exact A|]. split; [apply owned_ext; exact B|]. split; apply look_ext; assumption.
  - destruct H as (A & B & C & D). split; [exact A|]. split; [apply owned_ext; exact B|]. split; apply look_ext; assumption.
  - apply look_ext. exact H.
Qed.
Lemma sinv_start l : sinv (cstart l).
Proof.
  constructor; cbn [cstart ct_sess ct_ca ct_send ct_log ca_heap ca_seq ca_msg ca_query]; [reflexivity|constructor|constructor|constructor| | | | ].
  - intros [|t] s H; discriminate H.
  - reflexivity.
  - intros q l0 [].
  - intros [|t] s p r H; discriminate H.
Qed.

(** Changes of the sender t only, with a log that concerns only t. *)
Lemma sinv_sender c c1 t s s1 l : sinv c -> nth_error (ct_send c) t = Some s -> sn_ph s <> SDone ->
  ct_ca c1 = ct_ca c -> ct_send c1 = firstn t (ct_send c) ++ [s1] ++ skipn (S t) (ct_send c) -> protos c1 = protos c -> ct_log c1 = ct_log c ++ l ->
  recs l = [] -> (forall t', t' <> t -> hv t' (ct_log c ++ l) = hv t' (ct_log c)) -> sn_ph s1 <> SDone -> sender_ok (protos c) (ct_log c ++ l) t s1 -> sinv c1.
Proof.
  intros I N ND EA ES EP EL R O ND1 K. destruct I as [I1 I2 I3 I4 I5 I6 I7 I8]. 
  constructor; rewrite ?EA, ?ES, ?EP, ?EL; auto.
  - rewrite recs_app, R, app_nil_r. exact I1.
  - intros t' s' H. rewrite (nth_upd _ _ _ _ N) in H. destruct (t' =? t)%nat eqn:E.
    + apply Nat.eqb_eq in E. subst. injection H as <-. exact K.
    + apply Nat.eqb_neq in E. apply sender_ok_ext; [apply I5; exact H|apply O; exact E].
  - intros t' H. rewrite (len_upd _ _ _ _ N) in H. assert (t < length (ct_send c))%nat by (apply nth_error_Some; congruence). rewrite O by lia. apply I6. exact H.
  - intros q l0 H. destruct (I7 q l0 H) as (t' & s' & A & B & C). exists t', s'. rewrite (nth_upd _ _ _ _ N). destruct (t' =? t)%nat eqn:E; [|auto].
    apply Nat.eqb_eq in E. subst. rewrite N in A. injection A as <-. contradiction.
  - intros t' s' p r H D. rewrite (nth_upd _ _ _ _ N) in H. destruct (t' =? t)%nat eqn:E; [injection H as <-; contradiction|]. apply (I8 t' s' p r); assumption.
Qed.
(** Changes of sessions and logs of no sender. *)
Definition silent (o : cobs) : bool := match o with OPick _ _ | ORec _ _ _ _ | OBroke _ _ => false | _ => true end.
Lemma silent_recs l : forallb silent l = true -> recs l = [].
Proof. induction l as [|o l IH]; cbn [forallb]; [reflexivity|]. intros H. apply andb_true_iff in H as [A B]. cbn. fold (recs l). rewrite IH by exact B. destruct o; try discriminate A; reflexivity. Qed.
Lemma silent_hv l t log : forallb silent l = true -> hv t (log ++ l) = hv t log.
Proof.
  intros H. rewrite hv_app. generalize (hv t log). induction l as [|o l IH]; intros x; [reflexivity|]. cbn [forallb] in H. apply andb_true_iff in H as [A B]. cbn [fold_left].
  rewrite IH by exact B. destruct x as [fin cur]. destruct o; try discriminate A; reflexivity.
Qed.
Lemma sinv_silent c c1 l : sinv c -> ct_send c1 = ct_send c -> protos c1 = protos c -> ct_log c1 = ct_log c ++ l -> forallb silent l = true ->
  map view_of (ca_heap (ct_ca c1)) = map view_of (ca_heap (ct_ca c)) -> map rt_qid (ca_heap (ct_ca c1)) = map rt_qid (ca_heap (ct_ca c)) ->
  Forall (fun r => rt_report r = [] /\ rt_rept r = 0) (ca_heap (ct_ca c1)) -> incl (ca_seq (ct_ca c1)) (ca_seq (ct_ca c)) -> Forall (fun e => zlen (fst e) = 28) (ca_msg (ct_ca c1)) ->
  incl (ca_query (ct_ca c1)) (ca_query (ct_ca c)) -> sinv c1.
Proof.
  intros I ES EP EL S V Q R SQ M QY. destruct I as [I1 I2 I3 I4 I5 I6 I7 I8]. constructor; rewrite ?ES, ?EP, ?EL; auto.
  - rewrite recs_app, (silent_recs _ S), app_nil_r, V. exact I1.
  - rewrite Forall_forall in *. intros e H. destruct (I2 e (SQ e H)) as (r & A & B). apply (map_nth_error view_of) in B. rewrite <- V in B.
    destruct (nth_error (ca_heap (ct_ca c1)) (snd e)) as [r1|] eqn:N; [|apply nth_error_None in N; rewrite <- (map_length view_of) in N; apply nth_error_None in N; congruence].
    apply (map_nth_error view_of) in N. rewrite N in B. injection B as _ B. exists r1. split; [congruence|reflexivity].
  - intros t s H. apply sender_ok_ext; [apply I5; exact H|apply silent_hv; exact S].
  - intros t H. rewrite silent_hv by exact S. apply I6. exact H.
  - intros t s p r H D P N. apply (map_nth_error rt_qid) in N. rewrite Q in N.
    destruct (nth_error (ca_heap (ct_ca c)) p) as [r0|] eqn:N0; [|apply nth_error_None in N0; rewrite <- (map_length rt_qid) in N0; apply nth_error_None in N0; congruence].
    rewrite <- (I8 t s p r0 H D P N0). apply (map_nth_error rt_qid) in N0. rewrite N in N0. congruence.
Qed.
Lemma load_in {K V} eqb (k : K) (m : list (K * V)) v : load eqb k m = Some v -> exists k', eqb k k' = true /\ In (k', v) m.
Proof.
  induction m as [|[k' v'] m IH]; cbn [load]; [discriminate|]. destruct (eqb k k') eqn:E.
  - intros H. injection H as <-. exists k'. split; [exact E|left; reflexivity].
  - intros H. destruct (IH H) as (k2 & A & B). exists k2. split; [exact A|right; exact B].
Qed.
Lemma remove_incl {K V} eqb (k : K) (m : list (K * V)) : incl (remove eqb k m) m.
Proof. intros x H. apply filter_In in H. apply H. Qed.
Lemma removes_incl {K V} eqb (ks : list K) : forall (m : list (K * V)), incl (fold_left (fun m k => remove eqb k m) ks m) m.
Proof. induction ks as [|k ks IH]; intros m; cbn [fold_left]; [apply incl_refl|]. eapply incl_tran; [apply IH|apply remove_incl]. Qed.
Lemma answered_u32 c k code mid now : sinv c -> answered (ct_ca c) (U32 k) code mid now = ct_ca c.
Proof.
  intros I. unfold answered. destruct (load ckey_eqb (U32 k) (ca_seq (ct_ca c))) as [p|] eqn:L; [|reflexivity].
  apply load_in in L as (k' & E & H). pose proof (si_seq _ I) as S. rewrite Forall_forall in S. destruct (S _ H) as (r & A & _). cbn [fst] in A. subst k'. discriminate E.
Qed.
Lemma text_eqb_eq a b : text_eqb a b = true -> a = b.
Proof. unfold text_eqb. destruct (list_eq_dec Z.eq_dec a b); congruence. Qed.
Lemma reported_other c k txt now : sinv c -> zlen k <> 28 -> reported (ct_ca c) k txt now = ct_ca c.
Proof.
  intros I L. unfold reported. destruct (load text_eqb k (ca_msg (ct_ca c))) as [p|] eqn:E; [|reflexivity].
  apply load_in in E as (k' & E & H). apply text_eqb_eq in E. subst k'. pose proof (si_msg _ I) as S. rewrite Forall_forall in S. apply S in H. contradiction.
Qed.
Lemma zlen_s2s q : zlen (Sequence2String q) = 28.
Proof. destruct q as [[a b] c]. reflexivity. Qed.
(** The effect of a received packet in a reachable state. *)
Definition got_eff (p : proto) (cmd seq : Z) (f : bytes) (now : Z) (ca ca' : caches) : Prop :=
  match p with
  | P_SGIP => if cmd =? 2147483651
              then exists r, srsp_Decode cmd seq f = Ok r /\ ca' = answered ca (U64 (Sequence2Uint64 (sh_seq (sr_h r)))) (sr_status r) (Sequence2String (sh_seq (sr_h r))) now
              else ca' = ca
  | _ => ca' = ca
  end.
Lemma heff_got c p cmd seq f now ca' : sinv c -> heff p cmd seq f now (ct_ca c) ca' -> got_eff p cmd seq f now (ct_ca c) ca'.
Proof.
  intros I H. destruct p; cbn [heff got_eff] in *; [|exact H|];
  (destruct H as [H|[(k & code & mid & H)|(k & txt & L & H)]]; [exact H|rewrite H; apply answered_u32; exact I|rewrite H; apply reported_other; assumption]).
Qed.
Lemma answered_keeps ca k code mid now : let ca' := answered ca k code mid now in
  map view_of (ca_heap ca') = map view_of (ca_heap ca) /\ map rt_qid (ca_heap ca') = map rt_qid (ca_heap ca) /\ map rt_report (ca_heap ca') = map rt_report (ca_heap ca)
  /\ map rt_rept (ca_heap ca') = map rt_rept (ca_heap ca) /\ map rt_send (ca_heap ca') = map rt_send (ca_heap ca) /\ ca_seq ca' = ca_seq ca /\ ca_query ca' = ca_query ca.
Proof.
  cbv zeta. unfold answered. destruct (load ckey_eqb k (ca_seq ca)); [|repeat split]. cbn [ca_heap ca_seq ca_query]. repeat split; apply upd_heap_map; intros []; reflexivity.
Qed.
Lemma map_eq_Forall {A B} (f : A -> B) (P : B -> Prop) a b : map f a = map f b -> Forall (fun x => P (f x)) b -> Forall (fun x => P (f x)) a.
Proof. intros E H. apply Forall_map. rewrite E. apply Forall_map. exact H. Qed.
Lemma no_done_next : SNext <> SDone. Proof. discriminate. Qed.

Lemma sinv_got c c1 p cmd seq f now l : sinv c -> got_eff p cmd seq f now (ct_ca c) (ct_ca c1) ->
  ct_send c1 = ct_send c -> protos c1 = protos c -> ct_log c1 = ct_log c ++ l -> forallb silent l = true -> sinv c1.
Proof.
  intros I G ES EP EL S. assert (SAME : ct_ca c1 = ct_ca c -> sinv c1).
  { intros E. apply (sinv_silent c c1 l); rewrite ?E; auto; try apply incl_refl; apply I. }
  destruct p; cbn [got_eff] in G; auto. destruct (cmd =? 2147483651); auto. destruct G as (r & D & G).
  pose proof (answered_keeps (ct_ca c) (U64 (Sequence2Uint64 (sh_seq (sr_h r)))) (sr_status r) (Sequence2String (sh_seq (sr_h r))) now) as (A1 & A2 & A3 & A4 & _ & A5 & A6).
  apply (sinv_silent c c1 l); auto; rewrite G; auto.
  - pose proof (si_rep _ I) as R. rewrite Forall_forall in R. apply Forall_forall. intros x H. apply In_nth_error in H as (n & N).
    pose proof (map_nth_error rt_report _ _ N) as N1. pose proof (map_nth_error rt_rept _ _ N) as N2. rewrite A3 in N1. rewrite A4 in N2.
    destruct (nth_error (ca_heap (ct_ca c)) n) as [y|] eqn:Y.
    + pose proof (map_nth_error rt_report _ _ Y) as Y1. pose proof (map_nth_error rt_rept _ _ Y) as Y2. apply nth_error_In in Y. apply R in Y as [Y3 Y4]. split; congruence.
    + apply nth_error_None in Y. rewrite <- (map_length rt_report) in Y. apply nth_error_None in Y. congruence.
  - rewrite A5. apply incl_refl.
  - unfold answered. destruct (load ckey_eqb _ _); [|apply I]. cbn [ca_msg]. unfold store_at. constructor; [apply zlen_s2s|].
    pose proof (si_msg _ I) as M. rewrite Forall_forall in *. intros e H. apply M. apply (remove_incl _ _ _ _ H).
  - rewrite A6. apply incl_refl.
Qed.

Lemma sinv_record c c1 t s s1 i phone b key r done now p : sinv c -> nth_error (ct_send c) t = Some s -> sn_ph s = SWrote i phone b key r done ->
  nth_error (protos c) i = Some p ->
  ct_ca c1 = Caches (ca_heap (ct_ca c) ++ [Result 0 phone key 0 [] [] now 0 0]) (store_at ckey_eqb (U64 key) (length (ca_heap (ct_ca c))) (ca_seq (ct_ca c))) (ca_msg (ct_ca c)) (ca_query (ct_ca c)) ->
  ct_send c1 = firstn t (ct_send c) ++ [s1] ++ skipn (S t) (ct_send c) -> protos c1 = protos c -> ct_log c1 = ct_log c ++ [ORec t p phone b] ->
  (s1 = phase s (sn_todo s) (sn_res s ++ done ++ [length (ca_heap (ct_ca c))]) SNext \/ s1 = phase s (sn_todo s) (sn_res s) (SPart i phone r (done ++ [length (ca_heap (ct_ca c))]))) -> sinv c1.
Proof.
  intros I N PH NP EA ES EP EL S1. pose proof (si_snd _ I t s N) as K. unfold sender_ok in K. rewrite PH in K. destruct K as (KO & (p' & KP & KW & KF) & KD & KV1 & KV2).
  assert (p' = p) by congruence. subst p'.
  assert (RL : recs (ct_log c ++ [ORec t p phone b]) = recs (ct_log c) ++ [(t, phone, key)]) by (rewrite recs_app; cbn; rewrite KW; reflexivity).
  assert (LEN : length (ca_heap (ct_ca c)) = length (recs (ct_log c))) by (rewrite <- (map_length view_of), (si_heap _ I), map_length; reflexivity).
  assert (HVT : hv t (ct_log c ++ [ORec t p phone b]) = (fst (hv t (ct_log c)), snd (hv t (ct_log c)) ++ [(phone, key)])).
  { rewrite hv_app. cbn [fold_left]. destruct (hv t (ct_log c)) as [fin cur]. unfold hv_step. rewrite Nat.eqb_refl, KW. reflexivity. }
  assert (HVO : forall t', t' <> t -> hv t' (ct_log c ++ [ORec t p phone b]) = hv t' (ct_log c)).
  { intros t' D. rewrite hv_app. cbn [fold_left]. destruct (hv t' (ct_log c)) as [fin cur]. unfold hv_step. destruct (t =? t')%nat eqn:E; [apply Nat.eqb_eq in E; congruence|reflexivity]. }
  assert (LN : look (ct_log c ++ [ORec t p phone b]) [length (ca_heap (ct_ca c))] = map Some [(phone, key)]).
  { unfold look. cbn [map]. rewrite RL, map_app, nth_error_app2; rewrite map_length, LEN; [|lia]. rewrite Nat.sub_diag. reflexivity. }
  assert (ON : owned (ct_log c ++ [ORec t p phone b]) t [length (ca_heap (ct_ca c))]).
  { intros x [<-|[]]. exists phone, key. rewrite RL, nth_error_app2 by lia. rewrite LEN, Nat.sub_diag. reflexivity. }
  assert (NS : sn_ph s1 <> SDone) by (destruct S1; subst s1; cbn; discriminate).
  assert (ND : sn_ph s <> SDone) by (rewrite PH; discriminate).
  destruct I as [I1 I2 I3 I4 I5 I6 I7 I8]. constructor; rewrite ?EA, ?ES, ?EP, ?EL; cbn [ca_heap ca_seq ca_msg ca_query]; auto.
  - rewrite RL, !map_app, I1. reflexivity.
  - unfold store_at. constructor.
    + eexists. cbn [fst snd]. split; [|rewrite nth_error_app2, Nat.sub_diag by lia; reflexivity]. reflexivity.
    + rewrite Forall_forall in *. intros e H. apply remove_incl in H. destruct (I2 e H) as (x & A & B). exists x. split; [exact A|]. rewrite nth_error_app1; [exact B|]. apply nth_error_Some. congruence.
  - apply Forall_app. split; [exact I4|]. constructor; [split; reflexivity|constructor].
  - intros t' s' H. rewrite (nth_upd _ _ _ _ N) in H. destruct (t' =? t)%nat eqn:E.
    + apply Nat.eqb_eq in E. subst. injection H as <-. unfold sender_ok. rewrite HVT. cbn [fst snd].
      destruct S1 as [->| ->]; cbn [phase sn_ph sn_res].
      * split.
        { intros x X. apply in_app_iff in X as [X|X]; [exact (owned_ext _ _ _ _ KO x X)|]. apply in_app_iff in X as [X|X]; [exact (owned_ext _ _ _ _ KD x X)|exact (ON x X)]. }
        rewrite !map_app. unfold look. rewrite !map_app. f_equal; [exact (look_ext _ _ _ _ KV1)|]. f_equal; [exact (look_ext _ _ _ _ KV2)|exact LN].
      * split; [exact (owned_ext _ _ _ _ KO)|]. split; [exists p; auto|]. split.
        { intros x X. apply in_app_iff in X as [X|X]; [exact (owned_ext _ _ _ _ KD x X)|exact (ON x X)]. }
        split; [exact (look_ext _ _ _ _ KV1)|]. rewrite map_app. unfold look. rewrite !map_app. f_equal; [exact (look_ext _ _ _ _ KV2)|exact LN].
    + apply Nat.eqb_neq in E. apply sender_ok_ext; [apply I5; exact H|apply HVO; exact E].
  - intros t' H. rewrite (len_upd _ _ _ _ N) in H. assert (t < length (ct_send c))%nat by (apply nth_error_Some; congruence). rewrite HVO by lia. apply I6. exact H.
  - intros q l0 H. destruct (I7 q l0 H) as (t' & s' & A & B & C). exists t', s'. rewrite (nth_upd _ _ _ _ N). destruct (t' =? t)%nat eqn:E; [|auto].
    apply Nat.eqb_eq in E. subst. rewrite N in A. injection A as <-. contradiction.
  - intros t' s' x y H D X NX. rewrite (nth_upd _ _ _ _ N) in H. destruct (t' =? t)%nat eqn:E; [injection H as <-; contradiction|].
    destruct (proj1 (I5 t' s' H) x X) as (ph & k & R). assert (x < length (recs (ct_log c)))%nat by (apply nth_error_Some; congruence).
    rewrite nth_error_app1 in NX by lia. apply (I8 t' s' x y); assumption.
Qed.
Lemma set_qids_nth q l : forall h p, nth_error (fold_left (fun h p => upd_heap h p (set_qid q)) l h) p = if existsb (Nat.eqb p) l then option_map (set_qid q) (nth_error h p) else nth_error h p.
Proof.
  induction l as [|x l IH]; intros h p; [reflexivity|]. cbn [fold_left existsb]. rewrite IH, !upd_heap_nth.
  destruct (p =? x)%nat eqn:E; cbn [orb].
  - apply Nat.eqb_eq in E. subst x. destruct (existsb (Nat.eqb p) l); destruct (nth_error h p); reflexivity.
  - destruct (existsb (Nat.eqb p) l); reflexivity.
Qed.
Lemma set_qids_map {B} (g : result -> B) q l : (forall r, g (set_qid q r) = g r) -> forall h, map g (fold_left (fun h p => upd_heap h p (set_qid q)) l h) = map g h.
Proof. intros E. induction l as [|x l IH]; intros h; [reflexivity|]. cbn [fold_left]. rewrite IH. apply upd_heap_map. exact E. Qed.
Lemma map_fwd {A B} (f : A -> B) a b n x : map f a = map f b -> nth_error a n = Some x -> exists y, nth_error b n = Some y /\ f y = f x.
Proof.
  intros E H. apply (map_nth_error f) in H. rewrite E in H. destruct (nth_error b n) as [y|] eqn:Y.
  - exists y. apply (map_nth_error f) in Y. split; [reflexivity|congruence].
  - apply nth_error_None in Y. rewrite <- (map_length f) in Y. apply nth_error_None in Y. congruence.
Qed.
Lemma sinv_done c t s : sinv c -> nth_error (ct_send c) t = Some s -> sn_ph s = SNext ->
  sinv (say (put_send (put_ca c (saveQueryCache (ct_ca c) (sn_q s) (sn_res s))) t (phase s [] (sn_res s) SDone)) [ORet (sn_q s)]).
Proof.
  intros I N PH. pose proof (si_snd _ I t s N) as K. unfold sender_ok in K. rewrite PH in K. destruct K as (KO & KV).
  assert (SL : forall t', hv t' (ct_log c ++ [ORet (sn_q s)]) = hv t' (ct_log c)) by (intros; apply silent_hv; reflexivity).
  destruct I as [I1 I2 I3 I4 I5 I6 I7 I8]. unfold saveQueryCache.
  constructor; cbn [say put_send put_ca ct_ca ct_sess ct_send ct_log ca_heap ca_seq ca_msg ca_query]; auto.
  - rewrite recs_app. cbn. rewrite app_nil_r. rewrite set_qids_map by (intros []; reflexivity). exact I1.
  - rewrite Forall_forall in *. intros e H. destruct (I2 e H) as (x & A & B).
    destruct (map_fwd rt_seq (ca_heap (ct_ca c)) (fold_left (fun h p => upd_heap h p (set_qid (sn_q s))) (sn_res s) (ca_heap (ct_ca c))) (snd e) x) as (y & Y & E); [symmetry; apply set_qids_map; intros []; reflexivity|exact B|].
    exists y. rewrite E. auto.
  - apply Forall_forall. intros x H. apply In_nth_error in H as (n & H).
    destruct (map_fwd (fun r => (rt_report r, rt_rept r)) _ (ca_heap (ct_ca c)) n x (set_qids_map (fun r => (rt_report r, rt_rept r)) (sn_q s) (sn_res s) (fun r => match r with Result _ _ _ _ _ _ _ _ _ => eq_refl end) _) H) as (y & Y & E).
    apply nth_error_In in Y. rewrite Forall_forall in I4. apply I4 in Y as [Y1 Y2]. injection E as E1 E2. split; congruence.
  - unfold protos. cbn [ct_sess]. fold (protos c). intros t' s' H. rewrite (nth_upd _ _ _ _ N) in H. destruct (t' =? t)%nat eqn:E.
    + apply Nat.eqb_eq in E. subst. injection H as <-. unfold sender_ok, phase. cbn [sn_ph sn_res]. split; [apply owned_ext; exact KO|]. rewrite SL. apply look_ext. exact KV.
    + apply sender_ok_ext; [apply I5; exact H|apply SL].
  - intros t' H. rewrite (len_upd _ _ _ _ N) in H. rewrite SL. apply I6. exact H.
  - intros q l [H|H].
    + injection H as <- <-. exists t, (phase s [] (sn_res s) SDone). rewrite (nth_upd _ _ _ _ N), Nat.eqb_refl. auto.
    + apply remove_incl in H. destruct (I7 q l H) as (t' & s' & A & B & C). exists t', s'. rewrite (nth_upd _ _ _ _ N). destruct (t' =? t)%nat eqn:E; [|auto].
      apply Nat.eqb_eq in E. subst. rewrite N in A. injection A as <-. congruence.
  - intros t' s' p r H D X NX. rewrite set_qids_nth in NX. rewrite (nth_upd _ _ _ _ N) in H. destruct (t' =? t)%nat eqn:E.
    + injection H as <-. cbn [phase sn_res sn_q] in *. replace (existsb (Nat.eqb p) (sn_res s)) with true in NX.
      * destruct (nth_error (ca_heap (ct_ca c)) p); [|discriminate NX]. injection NX as <-. reflexivity.
      * symmetry. apply existsb_exists. exists p. split; [exact X|apply Nat.eqb_refl].
    + apply Nat.eqb_neq in E. replace (existsb (Nat.eqb p) (sn_res s)) with false in NX; [apply (I8 t' s' p r); assumption|].
      symmetry. apply Bool.not_true_is_false. intros F. apply existsb_exists in F as (x & F & G). apply Nat.eqb_eq in G. subst x.
      destruct (KO p F) as (a1 & b1 & A). destruct (proj1 (I5 t' s' H) p X) as (a2 & b2 & B). congruence.
Qed.
Ltac same_state I := match goal with |- sinv ?c => exact I end.
Lemma sinv_step pr c e c1 : sinv c -> cstep pr c e = Ok c1 -> sinv c1.
Proof.
  intros I H. destruct e as [q msg ops phones|t choice d now|t ok now|t now|t|i cmd seq body o|i|h d now|d now|d now]; cbn [cstep] in H.
  - destruct phones as [|ph phones].
    + injection H as <-. apply (sinv_silent c _ [ORet 0]); auto; try apply incl_refl; apply I.
    + injection H as <-. destruct I as [I1 I2 I3 I4 I5 I6 I7 I8]. constructor; cbn [ct_ca ct_sess ct_send ct_log]; auto.
      * intros t s H. destruct (Nat.lt_ge_cases t (length (ct_send c))) as [L|L].
        { rewrite nth_error_app1 in H by exact L. apply I5. exact H. }
        rewrite nth_error_app2 in H by exact L. destruct (t - length (ct_send c))%nat eqn:E; [|destruct n; discriminate H]. cbn in H. injection H as <-.
        split; [intros p []|]. cbn [sn_ph sn_res]. rewrite I6 by exact L. reflexivity.
      * intros t L. rewrite app_length in L. apply I6. lia.
      * intros q0 l0 X. destruct (I7 q0 l0 X) as (t & s & A & B). exists t, s. split; [|exact B]. rewrite nth_error_app1; [exact A|]. apply nth_error_Some. congruence.
      * intros t s p r A. destruct (Nat.lt_ge_cases t (length (ct_send c))) as [L|L].
        { rewrite nth_error_app1 in A by exact L. apply (I8 t s p r). exact A. }
        rewrite nth_error_app2 in A by exact L. destruct (t - length (ct_send c))%nat eqn:E; [|destruct n; discriminate A]. cbn in A. injection A as <-. cbn [sn_ph]. discriminate.
  - destruct (nth_error (ct_send c) t) as [s|] eqn:N; [|injection H as <-; exact I].
    destruct (sn_ph s) eqn:PH; try (injection H as <-; exact I). destruct (sn_todo s) as [|phone rest] eqn:TD; [injection H as <-; exact I|].
    pose proof (si_snd _ I t s N) as K. unfold sender_ok in K. rewrite PH in K. destruct K as (KO & KV).
    assert (HVT : hv t (ct_log c ++ [OPick t phone]) = (fst (hv t (ct_log c)) ++ snd (hv t (ct_log c)), [])).
    { rewrite hv_app. cbn [fold_left]. destruct (hv t (ct_log c)) as [fin cur]. unfold hv_step. rewrite Nat.eqb_refl. reflexivity. }
    assert (HVO : forall t', t' <> t -> hv t' (ct_log c ++ [OPick t phone]) = hv t' (ct_log c)).
    { intros t' D. rewrite hv_app. cbn [fold_left]. destruct (hv t' (ct_log c)) as [fin cur]. unfold hv_step. destruct (t =? t')%nat eqn:E; [apply Nat.eqb_eq in E; congruence|reflexivity]. }
    assert (NX : sender_ok (protos c) (ct_log c ++ [OPick t phone]) t (phase s rest (sn_res s) SNext)).
    { split; [apply owned_ext; exact KO|]. cbn [phase sn_ph sn_res]. rewrite HVT. cbn [fst snd]. rewrite app_nil_r. apply look_ext. exact KV. }
    assert (NXI : forall c2, ct_ca c2 = ct_ca c -> ct_send c2 = firstn t (ct_send c) ++ [phase s rest (sn_res s) SNext] ++ skipn (S t) (ct_send c) -> protos c2 = protos c -> ct_log c2 = ct_log c ++ [OPick t phone] -> sinv c2).
    { intros c2 A B C D. eapply (sinv_sender c c2 t s _ [OPick t phone] I N); eauto; [congruence|cbn; discriminate]. }
    destruct choice as [i|].
    + destruct (nth_error (ct_sess c) i) as [ss|] eqn:NS; [|injection H as <-; exact I]. destruct (HealthCheck ss); [|injection H as <-; exact I].
      destruct (cs_ac ss) as [ac|]; [|injection H as <-; exact I]. apply bind_ok in H as (parts & SG & H). apply segments_keyed in SG.
      destruct parts as [|x parts].
      * injection H as <-. destruct (used_rest (put_send c t (phase s rest (sn_res s) SNext)) i now) as (U1 & U2 & U3). apply NXI; unfold say; cbn [ct_ca ct_send ct_log].
        -- rewrite U1. reflexivity.
        -- rewrite U2. reflexivity.
        -- unfold protos. cbn [ct_sess]. exact (protos_used (put_send c t (phase s rest (sn_res s) SNext)) i now).
        -- rewrite U3. reflexivity.
      * injection H as <-. eapply (sinv_sender c _ t s (phase s rest (sn_res s) (SPart i phone (x :: parts) [])) [OPick t phone] I N); auto; [congruence|cbn; discriminate|].
        split; [apply owned_ext; exact KO|]. cbn [phase sn_ph sn_res]. rewrite HVT. cbn [fst snd]. split; [exists (cs_p ss); split; [unfold protos; apply map_nth_error; exact NS|exact SG]|].
        split; [intros p []|]. split; [apply look_ext; exact KV|reflexivity].
    + injection H as <-. apply NXI; reflexivity.
  - destruct (nth_error (ct_send c) t) as [s|] eqn:N; [|injection H as <-; exact I].
    destruct (sn_ph s) as [|i phone parts done|i phone b key parts done|] eqn:PH; try (injection H as <-; exact I). destruct parts as [|[enc key] r]; [injection H as <-; exact I|].
    destruct (nth_error (ct_sess c) i) as [ss|] eqn:NS; [|injection H as <-; exact I]. apply bind_ok in H as (b & B & H). apply reply_ok in B as [B _].
    pose proof (si_snd _ I t s N) as K. unfold sender_ok in K. rewrite PH in K. destruct K as (KO & (p & KP & KF) & KD & KV1 & KV2).
    destruct ok.
    + injection H as <-. assert (SL : forall t', hv t' (ct_log c ++ [OWrote t i b]) = hv t' (ct_log c)) by (intros; apply silent_hv; reflexivity).
      eapply (sinv_sender c _ t s (phase s (sn_todo s) (sn_res s) (SWrote i phone b key r done)) [OWrote t i b] I N); auto; [congruence|cbn; discriminate|].
      split; [apply owned_ext; exact KO|]. cbn [phase sn_ph sn_res]. rewrite SL. split; [exists p; split; [exact KP|]; split; [exact (Forall_inv KF b B)|exact (Forall_inv_tail KF)]|].
      split; [apply owned_ext; exact KD|]. split; apply look_ext; assumption.
    + apply bind_ok in H as (s1 & CL & H). injection H as <-. apply Close_keeps in CL.
      set (c2 := put_send (put_sess c i s1) t (phase s (sn_todo s) (sn_res s) SNext)). destruct (used_rest c2 i now) as (U1 & U2 & U3).
      assert (HVT : hv t (ct_log c ++ [OBroke t i]) = (fst (hv t (ct_log c)), [])).
      { rewrite hv_app. cbn [fold_left]. destruct (hv t (ct_log c)) as [fin cur]. unfold hv_step. rewrite Nat.eqb_refl. reflexivity. }
      assert (HVO : forall t', t' <> t -> hv t' (ct_log c ++ [OBroke t i]) = hv t' (ct_log c)).
      { intros t' D. rewrite hv_app. cbn [fold_left]. destruct (hv t' (ct_log c)) as [fin cur]. unfold hv_step. destruct (t =? t')%nat eqn:E; [apply Nat.eqb_eq in E; congruence|reflexivity]. }
      apply (sinv_sender c (say (used c2 i now) [OBroke t i]) t s (phase s (sn_todo s) (sn_res s) SNext) [OBroke t i] I N); unfold say; cbn [ct_ca ct_send ct_log].
      * congruence.
      * rewrite U1. reflexivity.
      * rewrite U2. reflexivity.
      * transitivity (protos c2); [exact (protos_used c2 i now)|]. unfold c2. exact (protos_put c i ss s1 NS CL).
      * rewrite U3. reflexivity.
      * reflexivity.
      * exact HVO.
      * cbn; discriminate.
      * split; [apply owned_ext; exact KO|]. cbn [phase sn_ph sn_res]. rewrite HVT. cbn [fst snd]. rewrite app_nil_r. apply look_ext. exact KV1.
  - destruct (nth_error (ct_send c) t) as [s|] eqn:N; [|injection H as <-; exact I].
    destruct (sn_ph s) as [|i phone parts done|i phone b key r done|] eqn:PH; try (injection H as <-; exact I).
    pose proof (si_snd _ I t s N) as K. unfold sender_ok in K. rewrite PH in K. destruct K as (_ & (p & KP & _) & _). unfold protos in KP.
    destruct (nth_error (ct_sess c) i) as [ss|] eqn:NS; [|apply nth_error_None in NS; rewrite <- (map_length cs_p) in NS; apply nth_error_None in NS; congruence].
    pose proof (map_nth_error cs_p _ _ NS) as KP'. rewrite KP in KP'. injection KP' as ->. cbv zeta in H. destruct r as [|x r].
    + injection H as <-. match goal with |- sinv (used ?c2 i now) => destruct (used_rest c2 i now) as (U1 & U2 & U3); pose proof (protos_used c2 i now) as U4 end.
      eapply (sinv_record c _ t s _ i phone b key [] done now (cs_p ss) I N PH KP); [rewrite U1; reflexivity|rewrite U2; reflexivity|rewrite U4; reflexivity|rewrite U3; reflexivity|left; reflexivity].
    + injection H as <-. eapply (sinv_record c _ t s _ i phone b key (x :: r) done now (cs_p ss) I N PH KP); [reflexivity|reflexivity|reflexivity|reflexivity|right; reflexivity].
  - destruct (nth_error (ct_send c) t) as [s|] eqn:N; [|injection H as <-; exact I].
    destruct (sn_ph s) eqn:PH; try (injection H as <-; exact I). destruct (sn_todo s) as [|phone rest] eqn:TD; [|injection H as <-; exact I].
    injection H as <-. apply sinv_done; assumption.
  - destruct (nth_error (ct_sess c) i) as [ss|] eqn:NS; [|injection H as <-; exact I]. apply bind_ok in H as ([[s1 ca] out] & G & H). injection H as <-.
    apply handler_eff in G as [GP G]. apply (heff_got c) in G; [|exact I].
    eapply (sinv_got c _ (cs_p ss) cmd seq body (g_now o) _ I); [exact G|reflexivity|exact (protos_put c i ss s1 NS GP)|reflexivity|].
    cbn [forallb silent andb]. apply forallb_forall. intros x X. apply in_map_iff in X as (y & <- & _). reflexivity.
  - destruct (nth_error (ct_sess c) i) as [ss|] eqn:NS; [|injection H as <-; exact I]. apply bind_ok in H as (s1 & CL & H). injection H as <-. apply Close_keeps in CL.
    apply (sinv_silent c _ []); auto; try apply incl_refl; try apply I; [exact (protos_put c i ss s1 NS CL)|cbn; rewrite app_nil_r; reflexivity].
  - injection H as <-. unfold cleanQueryCacheMap. destruct (sweep_query _ _ _ _ _ _ _ _) as [[ex ba] out]. cbn [fst].
    apply (sinv_silent c _ []); auto; cbn [put_ca ct_ca ct_log ca_heap ca_seq ca_msg ca_query]; try apply incl_refl; try apply I; [rewrite app_nil_r; reflexivity|]. apply removes_incl.
  - injection H as <-. unfold cleanRequestIdCacheMap. cbv zeta.
    apply (sinv_silent c _ []); auto; cbn [put_ca ct_ca ct_log ca_heap ca_seq ca_msg ca_query]; try apply incl_refl; try apply I; [rewrite app_nil_r; reflexivity|]. apply removes_incl.
  - injection H as <-. unfold cleanMsgIdCacheMap. cbv zeta.
    apply (sinv_silent c _ []); auto; cbn [put_ca ct_ca ct_log ca_heap ca_seq ca_msg ca_query]; try apply incl_refl; try apply I; [rewrite app_nil_r; reflexivity|].
    pose proof (si_msg _ I) as M. rewrite Forall_forall in *. intros e E. apply M. apply removes_incl in E. exact E.
Qed.
Lemma crun_app pr a : forall c b, crun pr c (a ++ b) = bind (crun pr c a) (fun c1 => crun pr c1 b).
Proof. induction a as [|e a IH]; intros c b; [reflexivity|]. cbn [app crun]. destruct (cstep pr c e); cbn [bind]; [apply IH|reflexivity|reflexivity]. Qed.
Lemma sinv_run pr es : forall c c1, sinv c -> crun pr c es = Ok c1 -> sinv c1.
Proof.
  induction es as [|e es IH]; intros c c1 I H; cbn [crun] in H; [injection H as <-; exact I|]. apply bind_ok in H as (c2 & E & H). apply (IH c2); [apply (sinv_step pr c e); assumption|exact H].
Qed.

(** ** What a step does to the results *)
Definition core (r : result) := (view_of r, rt_result r, rt_msgid r, rt_resp r, rt_send r).
Definition quiet (o : cobs) : bool :=
  match o with ORec _ _ _ _ => false | OGotP _ P_SGIP cmd _ _ => negb (cmd =? 2147483651) | _ => true end.
Definition fresh_result (phone : bytes) (key now : Z) : result := Result 0 phone key 0 [] [] now 0 0.
Inductive step_kind (c : cstate) (e : cevent) (c1 : cstate) : Prop :=
| KQuiet l : ct_log c1 = ct_log c ++ l -> forallb quiet l = true -> ca_seq (ct_ca c1) = ca_seq (ct_ca c) ->
    map core (ca_heap (ct_ca c1)) = map core (ca_heap (ct_ca c)) -> step_kind c e c1
| KRec t p phone b now : e = CRecord t now -> ct_log c1 = ct_log c ++ [ORec t p phone b] ->
    ca_heap (ct_ca c1) = ca_heap (ct_ca c) ++ [fresh_result phone (wire_key p b) now] ->
    ca_seq (ct_ca c1) = store_at ckey_eqb (U64 (wire_key p b)) (length (ca_heap (ct_ca c))) (ca_seq (ct_ca c)) -> step_kind c e c1
| KAns i seq body o r out : e = CGot i 2147483651 seq body o -> srsp_Decode 2147483651 seq body = Ok r ->
    ct_log c1 = ct_log c ++ OGotP i P_SGIP 2147483651 seq body :: map (OReply i) out ->
    ct_ca c1 = answered (ct_ca c) (U64 (Sequence2Uint64 (sh_seq (sr_h r)))) (sr_status r) (Sequence2String (sh_seq (sr_h r))) (g_now o) -> step_kind c e c1
| KSweep d now : e = CSweepS d now -> ct_log c1 = ct_log c -> ct_ca c1 = cleanRequestIdCacheMap (ct_ca c) d now -> step_kind c e c1.
Lemma kquiet_ca c e c1 l : ct_log c1 = ct_log c ++ l -> forallb quiet l = true -> ct_ca c1 = ct_ca c -> step_kind c e c1.
Proof. intros A B C. apply (KQuiet c e c1 l A B); rewrite C; reflexivity. Qed.
Lemma kstay c e : step_kind c e c.
Proof. apply (kquiet_ca c e c []); [rewrite app_nil_r; reflexivity|reflexivity|reflexivity]. Qed.
Lemma replies_quiet i out : forallb quiet (map (OReply i) out) = true.
Proof. apply forallb_forall. intros x X. apply in_map_iff in X as (y & <- & _). reflexivity. Qed.
Lemma step_kinds pr c e c1 : sinv c -> cstep pr c e = Ok c1 -> step_kind c e c1.
Proof.
  intros I H. destruct e as [q msg ops phones|t choice d now|t ok now|t now|t|i cmd seq body o|i|h d now|d now|d now]; cbn [cstep] in H.
  - destruct phones; injection H as <-; [apply (kquiet_ca _ _ _ [ORet 0])|apply (kquiet_ca _ _ _ [])]; try reflexivity. cbn. rewrite app_nil_r. reflexivity.
  - destruct (nth_error (ct_send c) t) as [s|] eqn:N; [|injection H as <-; apply kstay].
    destruct (sn_ph s) eqn:PH; try (injection H as <-; apply kstay). destruct (sn_todo s) as [|phone rest] eqn:TD; [injection H as <-; apply kstay|].
    destruct choice as [i|]; [|injection H as <-; apply (kquiet_ca _ _ _ [OPick t phone]); reflexivity].
    destruct (nth_error (ct_sess c) i) as [ss|] eqn:NS; [|injection H as <-; apply kstay]. destruct (HealthCheck ss); [|injection H as <-; apply kstay].
    destruct (cs_ac ss) as [ac|]; [|injection H as <-; apply kstay]. apply bind_ok in H as (parts & SG & H).
    destruct parts as [|x parts]; injection H as <-; apply (kquiet_ca _ _ _ [OPick t phone]); try reflexivity; unfold say; cbn [ct_log ct_ca];
      match goal with |- context [used ?c2 i now] => destruct (used_rest c2 i now) as (U1 & U2 & U3) end; rewrite ?U1, ?U3; reflexivity.
  - destruct (nth_error (ct_send c) t) as [s|] eqn:N; [|injection H as <-; apply kstay].
    destruct (sn_ph s) as [|i phone parts done|i phone b key parts done|] eqn:PH; try (injection H as <-; apply kstay). destruct parts as [|[enc key] r]; [injection H as <-; apply kstay|].
    destruct (nth_error (ct_sess c) i) as [ss|] eqn:NS; [|injection H as <-; apply kstay]. apply bind_ok in H as (b & B & H).
    destruct ok; [injection H as <-; apply (kquiet_ca _ _ _ [OWrote t i b]); reflexivity|].
    apply bind_ok in H as (s1 & CL & H). injection H as <-. apply (kquiet_ca _ _ _ [OBroke t i]); try reflexivity; unfold say; cbn [ct_log ct_ca];
      match goal with |- context [used ?c2 i now] => destruct (used_rest c2 i now) as (U1 & U2 & U3) end; rewrite ?U1, ?U3; reflexivity.
  - destruct (nth_error (ct_send c) t) as [s|] eqn:N; [|injection H as <-; apply kstay].
    destruct (sn_ph s) as [|i phone parts done|i phone b key r done|] eqn:PH; try (injection H as <-; apply kstay).
    pose proof (si_snd _ I t s N) as K. unfold sender_ok in K. rewrite PH in K. destruct K as (_ & (p & KP & KW & _) & _). unfold protos in KP.
    destruct (nth_error (ct_sess c) i) as [ss|] eqn:NS; [|apply nth_error_None in NS; rewrite <- (map_length cs_p) in NS; apply nth_error_None in NS; congruence].
    pose proof (map_nth_error cs_p _ _ NS) as KP'. rewrite KP in KP'. injection KP' as ->. cbv zeta in H. rewrite <- KW in H.
    destruct r as [|x r]; injection H as <-.
    + match goal with |- context [used ?c2 i now] => destruct (used_rest c2 i now) as (U1 & U2 & U3) end.
      apply (KRec _ _ _ t (cs_p ss) phone b now eq_refl); rewrite ?U1, ?U3; reflexivity.
    + apply (KRec _ _ _ t (cs_p ss) phone b now eq_refl); reflexivity.
  - destruct (nth_error (ct_send c) t) as [s|] eqn:N; [|injection H as <-; apply kstay].
    destruct (sn_ph s) eqn:PH; try (injection H as <-; apply kstay). destruct (sn_todo s) as [|phone rest] eqn:TD; [|injection H as <-; apply kstay].
    injection H as <-. apply (KQuiet _ _ _ [ORet (sn_q s)]); try reflexivity. cbn. apply set_qids_map. intros []; reflexivity.
  - destruct (nth_error (ct_sess c) i) as [ss|] eqn:NS; [|injection H as <-; apply kstay]. apply bind_ok in H as ([[s1 ca] out] & G & H). injection H as <-.
    apply handler_eff in G as [GP G]. apply (heff_got c) in G; [|exact I]. destruct (cs_p ss) eqn:P; cbn [got_eff] in G.
    + apply (kquiet_ca _ _ _ (OGotP i P_CMPP cmd seq body :: map (OReply i) out)); [reflexivity|cbn; apply replies_quiet|exact G].
    + destruct (cmd =? 2147483651) eqn:C.
      * apply Z.eqb_eq in C. subst cmd. destruct G as (r & D & G). apply (KAns _ _ _ i seq body o r out eq_refl D); [reflexivity|exact G].
      * apply (kquiet_ca _ _ _ (OGotP i P_SGIP cmd seq body :: map (OReply i) out)); [reflexivity|cbn [forallb quiet]; rewrite C; apply replies_quiet|exact G].
    + apply (kquiet_ca _ _ _ (OGotP i P_SMGP cmd seq body :: map (OReply i) out)); [reflexivity|cbn; apply replies_quiet|exact G].
  - destruct (nth_error (ct_sess c) i) as [ss|] eqn:NS; [|injection H as <-; apply kstay]. apply bind_ok in H as (s1 & CL & H). injection H as <-.
    apply (kquiet_ca _ _ _ []); [cbn; rewrite app_nil_r; reflexivity|reflexivity|reflexivity].
  - injection H as <-. unfold cleanQueryCacheMap. destruct (sweep_query _ _ _ _ _ _ _ _) as [[ex ba] out].
    apply (KQuiet _ _ _ []); [cbn; rewrite app_nil_r; reflexivity|reflexivity|reflexivity|reflexivity].
  - injection H as <-. apply (KSweep _ _ _ d now eq_refl); reflexivity.
  - injection H as <-. apply (KQuiet _ _ _ []); [cbn; rewrite app_nil_r; reflexivity|reflexivity|reflexivity|reflexivity].
Qed.

(** ** Answers *)
Definition got_ok (e : cevent) : Prop := match e with CGot _ _ seq body _ => 0 <= seq < 2 ^ 32 /\ bytes_ok body | _ => True end.
(** A result is not expired for the sweeper of the cache by sequence id in any round so far. *)
Definition fresh (es : list cevent) (r : result) : Prop := forall d now, In (CSweepS d now) es -> now <= rt_send r + d.
Lemma last_app a b k : last_answer (a ++ b) k = fold_left (la_step k) b (last_answer a k).
Proof. unfold last_answer. apply fold_left_app. Qed.
Lemma quiet_last l k : forallb quiet l = true -> forall x, fold_left (la_step k) l x = x.
Proof.
  induction l as [|o l IH]; intros H x; [reflexivity|]. cbn [forallb] in H. apply andb_true_iff in H as [A B]. cbn [fold_left]. rewrite (IH B).
  destruct o as [ | | | | |i p cmd seq body| ]; try discriminate A; try reflexivity. cbn [la_step sg_answer]. destruct p; try reflexivity. cbn [quiet] in A. apply negb_true_iff in A. rewrite A. reflexivity.
Qed.
Lemma quiet_recs l : forallb quiet l = true -> recs l = [].
Proof. induction l as [|o l IH]; cbn [forallb]; [reflexivity|]. intros H. apply andb_true_iff in H as [A B]. cbn. fold (recs l). rewrite IH by exact B. destruct o; try discriminate A; reflexivity. Qed.
Lemma core_shows r r' x : core r = core r' -> shows r x -> shows r' x.
Proof. intros E. injection E as _ _ E1 E2 E3 _. unfold shows. rewrite E1, E2, E3. auto. Qed.
Lemma load_store_same {K V} (eqb : K -> K -> bool) k (v : V) m : eqb k k = true -> load eqb k (store_at eqb k v m) = Some v.
Proof. intros E. cbn. rewrite E. reflexivity. Qed.
Lemma load_remove_other {K V} (eqb : K -> K -> bool) (eqb_ok : forall a b, eqb a b = true <-> a = b) k k' (m : list (K * V)) : k <> k' -> load eqb k (remove eqb k' m) = load eqb k m.
Proof.
  intros D. induction m as [|[a v] m IH]; [reflexivity|]. cbn [remove filter fst load]. destruct (eqb k' a) eqn:E; cbn [negb].
  - apply eqb_ok in E. subst a. destruct (eqb k k') eqn:F; [apply eqb_ok in F; contradiction|]. exact IH.
  - cbn [load]. destruct (eqb k a); [reflexivity|exact IH].
Qed.
Lemma load_store_other {K V} (eqb : K -> K -> bool) (eqb_ok : forall a b, eqb a b = true <-> a = b) k k' (v : V) m : k <> k' -> load eqb k (store_at eqb k' v m) = load eqb k m.
Proof.
  intros D. unfold store_at. cbn [load]. destruct (eqb k k') eqn:F; [apply eqb_ok in F; contradiction|]. apply load_remove_other; assumption.
Qed.
Lemma load_removes {K V} (eqb : K -> K -> bool) (eqb_ok : forall a b, eqb a b = true <-> a = b) k ks : forall (m : list (K * V)), ~ In k ks -> load eqb k (fold_left (fun m k => remove eqb k m) ks m) = load eqb k m.
Proof.
  induction ks as [|x ks IH]; intros m H; [reflexivity|]. cbn [fold_left]. rewrite IH by (intros X; apply H; right; exact X). apply load_remove_other; [exact eqb_ok|]. intros ->. apply H. left. reflexivity.
Qed.
Lemma ckey_ok a b : ckey_eqb a b = true <-> a = b.
Proof. destruct a, b; cbn [ckey_eqb]; rewrite ?Z.eqb_eq; split; intros H; try discriminate H; congruence. Qed.
(** The text of an answer's message id. *)
Lemma dec10_value n : 0 <= n < 2 ^ 32 -> dec_value (dec10 n) = n /\ all_digits (dec10 n).
Proof.
  intros H. unfold dec10, dec_value, all_digits. cbn [map fold_left]. change (10 ^ 9) with 1000000000. change (10 ^ 8) with 100000000. change (10 ^ 7) with 10000000. change (10 ^ 6) with 1000000. change (10 ^ 5) with 100000.
  change (10 ^ 4) with 10000. change (10 ^ 3) with 1000. change (10 ^ 2) with 100. change (10 ^ 1) with 10. change (10 ^ 0) with 1. rewrite Z.div_1_r.
  split.
  - assert (D : forall k k', 0 < k -> k' = k * 10 -> n / k = 10 * (n / k') + (n / k) mod 10). { intros k k' K ->. rewrite <- Z.div_div by lia. apply Z.div_mod. lia. }
    pose proof (D 1 10 ltac:(lia) ltac:(reflexivity)) as D0.
    pose proof (D 10 100 ltac:(lia) ltac:(reflexivity)) as D1.
    pose proof (D 100 1000 ltac:(lia) ltac:(reflexivity)) as D2.
    pose proof (D 1000 10000 ltac:(lia) ltac:(reflexivity)) as D3.
    pose proof (D 10000 100000 ltac:(lia) ltac:(reflexivity)) as D4.
    pose proof (D 100000 1000000 ltac:(lia) ltac:(reflexivity)) as D5.
    pose proof (D 1000000 10000000 ltac:(lia) ltac:(reflexivity)) as D6.
    pose proof (D 10000000 100000000 ltac:(lia) ltac:(reflexivity)) as D7.
    pose proof (D 100000000 1000000000 ltac:(lia) ltac:(reflexivity)) as D8.
    pose proof (D 1000000000 10000000000 ltac:(lia) ltac:(reflexivity)) as D9.
    rewrite Z.div_1_r in D0. assert (Z10 : n / 10000000000 = 0) by (apply Z.div_small; change (2 ^ 32) with 4294967296 in H; lia). rewrite Z10 in D9. clear D Z10 H.
    repeat match goal with H : context [?x mod 10] |- _ => let m := fresh "m" in set (m := x mod 10) in *; clearbody m end.
    repeat match goal with H : context [n / ?k] |- _ => let m := fresh "q" in set (m := n / k) in *; clearbody m end. lia.
  - repeat (apply Forall_cons; [match goal with |- _ <= 48 + ?x mod 10 <= _ => pose proof (Z.mod_pos_bound x 10 ltac:(lia)); lia end|]); apply Forall_nil.
Qed.

Lemma get_be_val n f lo hi v : get_be n f lo hi = Ok v -> hi - lo = Z.of_nat n -> v = unbe (firstn n (skipn (Z.to_nat lo) f)).
Proof.
  unfold get_be, slice. intros H E. destruct ((0 <=? lo) && (lo <=? hi) && (hi <=? zlen f)); [|discriminate H]. cbn [bind] in H. rewrite E, Nat2Z.id in H.
  destruct (Z.of_nat n <=? _); [|discriminate H]. rewrite firstn_firstn, Nat.min_id in H. congruence.
Qed.
Lemma at_val f i v : at_ f i = Ok v -> v = nth (Z.to_nat i) f 0.
Proof. unfold at_. destruct (_ && _); [|discriminate]. destruct (nth_error f (Z.to_nat i)) eqn:E; [|discriminate]. intros H. injection H as <-. symmetry. apply nth_error_nth. exact E. Qed.
Lemma srsp_fields cmd seq f r : srsp_Decode cmd seq f = Ok r ->
  9 <= zlen f /\ sh_seq (sr_h r) = (seq, unbe (firstn 4 f), unbe (firstn 4 (skipn 4 f))) /\ sr_status r = nth 8 f 0.
Proof.
  unfold srsp_Decode. intros H. apply bind_ok in H as (b & B & H). apply bind_ok in H as (c & C & H). apply bind_ok in H as (s & S & H). injection H as <-. cbn [sr_h sh_seq sr_status].
  assert (L : 0 <= 8 < zlen f) by (apply at_ok_iff; eauto). split; [lia|]. apply get_be_val in B; [|lia]. apply get_be_val in C; [|lia]. apply at_val in S. subst. split; reflexivity.
Qed.
(** The invariant of the answers. *)
Definition ainv (es : list cevent) (c : cstate) : Prop :=
  NoDup (map snd (recs (ct_log c))) -> forall p r, nth_error (ca_heap (ct_ca c)) p = Some r -> fresh es r ->
    load ckey_eqb (U64 (rt_seq r)) (ca_seq (ct_ca c)) = Some p /\ shows r (last_answer (ct_log c) (rt_seq r)).
Lemma NoDup_app_l {A} (a b : list A) : NoDup (a ++ b) -> NoDup a.
Proof. induction a as [|x a IH]; cbn; intros H; constructor; inversion H; subst; [intros X; apply H2; apply in_app_iff; auto|auto]. Qed.
Lemma heap_key c p r : sinv c -> nth_error (ca_heap (ct_ca c)) p = Some r -> exists t, nth_error (recs (ct_log c)) p = Some (t, rt_phone r, rt_seq r).
Proof.
  intros I N. apply (map_nth_error view_of) in N. rewrite (si_heap _ I) in N. destruct (nth_error (recs (ct_log c)) p) as [[[t ph] k]|] eqn:E.
  - apply (map_nth_error strip) in E. rewrite N in E. injection E as E1 E2. exists t. congruence.
  - apply nth_error_None in E. rewrite <- (map_length strip) in E. apply nth_error_None in E. congruence.
Qed.
Lemma fresh_pre es e r : fresh (es ++ [e]) r -> fresh es r.
Proof. intros H d now I. apply H. apply in_app_iff. auto. Qed.
Lemma ainv_step es e c c1 : sinv c -> sinv c1 -> got_ok e -> step_kind c e c1 -> ainv es c -> ainv (es ++ [e]) c1.
Proof.
  intros I I1 G K A ND p r N F. destruct K as [l EL Q ES EH|t pp phone b now -> EL EH ES|i seq body o rr out -> D EL EC|d now -> EL EC].
  - destruct (map_fwd core _ _ p r EH N) as (r0 & N0 & E0). assert (K : rt_seq r0 = rt_seq r /\ rt_send r0 = rt_send r) by (injection E0; auto). destruct K as [K1 K2].
    rewrite EL, recs_app, (quiet_recs _ Q), app_nil_r in ND. assert (F0 : fresh es r0) by (apply fresh_pre in F; unfold fresh in *; rewrite K2; exact F).
    destruct (A ND p r0 N0 F0) as [L S]. rewrite ES, EL, last_app, (quiet_last _ _ Q), <- K1. split; [exact L|]. apply (core_shows r0 r); assumption.
  - rewrite EL, recs_app, map_app in ND. cbn [recs flat_map app map snd] in ND. pose proof (NoDup_app_l _ _ ND) as ND0.
    rewrite EH in N. destruct (Nat.lt_ge_cases p (length (ca_heap (ct_ca c)))) as [L|L].
    + rewrite nth_error_app1 in N by exact L. destruct (A ND0 p r N (fresh_pre _ _ _ F)) as [X S].
      assert (NE : rt_seq r <> wire_key pp b).
      { intros E. destruct (heap_key c p r I N) as (t' & R). apply NoDup_remove_2 in ND. rewrite app_nil_r in ND. apply ND. rewrite <- E. apply nth_error_In in R. apply (in_map snd) in R. exact R. }
      rewrite ES, EL, last_app. cbn [fold_left la_step]. destruct (wire_key pp b =? rt_seq r) eqn:Q; [apply Z.eqb_eq in Q; congruence|]. split; [|exact S].
      rewrite (load_store_other _ ckey_ok); [exact X|congruence].
    + rewrite nth_error_app2 in N by exact L. destruct (p - length (ca_heap (ct_ca c)))%nat eqn:P; [|destruct n; discriminate N]. cbn in N. injection N as <-. unfold fresh_result. cbn [rt_seq].
      rewrite ES, EL, last_app. cbn [fold_left la_step]. rewrite Z.eqb_refl. split; [|cbn; auto]. rewrite load_store_same by (apply ckey_ok; reflexivity). f_equal. lia.
  - assert (RE : recs (ct_log c1) = recs (ct_log c)).
    { rewrite EL, recs_app. cbn. replace (flat_map _ _) with (recs (map (OReply i) out)) by reflexivity. rewrite (quiet_recs _ (replies_quiet _ _)). apply app_nil_r. }
    rewrite RE in ND. destruct (srsp_fields _ _ _ _ D) as (L9 & SQ & ST). destruct G as [GS GB].
    assert (LA : forall k, last_answer (ct_log c1) k = let a := SGAnswer seq (unbe (firstn 4 body)) (unbe (firstn 4 (skipn 4 body))) (nth 8 body 0) in if sa_key a =? k then Some a else last_answer (ct_log c) k).
    { intros k. rewrite EL, last_app. cbn [fold_left]. rewrite (quiet_last _ _ (replies_quiet _ _)). cbn [la_step sg_answer]. replace (9 <=? zlen body) with true by (symmetry; apply Z.leb_le; lia). reflexivity. }
    assert (R1 : 0 <= unbe (firstn 4 body) < 2 ^ 32).
    { assert (zlen (firstn 4 body) = 4) by (unfold zlen, bytes in *; rewrite firstn_length; lia). pose proof (unbe_range (firstn 4 body) (bytes_ok_firstn _ _ GB)). rewrite H in H0. exact H0. }
    assert (R2 : 0 <= unbe (firstn 4 (skipn 4 body)) < 2 ^ 32).
    { assert (zlen (firstn 4 (skipn 4 body)) = 4) by (unfold zlen, bytes in *; rewrite firstn_length, skipn_length; lia). pose proof (unbe_range (firstn 4 (skipn 4 body)) (bytes_ok_firstn _ _ (bytes_ok_skipn _ _ GB))). rewrite H in H0. exact H0. }
    rewrite SQ in EC. set (x := unbe (firstn 4 body)) in *. set (y := unbe (firstn 4 (skipn 4 body))) in *. clearbody x y.
    assert (KEY : Sequence2Uint64 (seq, x, y) = x * 2 ^ 32 + y) by (cbn [Sequence2Uint64]; rewrite Z.shiftl_mul_pow2 by lia; apply lor_disjoint; lia).
    rewrite KEY in EC. rewrite LA. cbv zeta. unfold sa_key. cbn [sa_a sa_b sa_c].
    unfold answered in EC. destruct (load ckey_eqb (U64 (x * 2 ^ 32 + y)) (ca_seq (ct_ca c))) as [p0|] eqn:LD.
    + rewrite EC in *. cbn [ca_heap ca_seq] in *. rewrite upd_heap_nth in N. destruct (p =? p0)%nat eqn:PE.
      * apply Nat.eqb_eq in PE. subst p0. destruct (nth_error (ca_heap (ct_ca c)) p) as [r0|] eqn:N0; [|discriminate N]. cbn [option_map] in N. injection N as <-. cbn [rt_seq set_answer] in *.
        assert (F0 : fresh es r0) by (apply fresh_pre in F; exact F). destruct (A ND p r0 N0 F0) as [X S]. split; [exact X|].
        apply load_in in LD as (k' & KE & IN). apply ckey_ok in KE. subst k'. pose proof (si_seq _ I) as SI. rewrite Forall_forall in SI. destruct (SI _ IN) as (r1 & KR & NR). cbn [fst snd] in KR, NR.
        assert (r1 = r0) by congruence. subst r1. assert (KR' : x * 2 ^ 32 + y = rt_seq r0) by congruence. rewrite KR', Z.eqb_refl. cbn [shows rt_result rt_msgid set_answer sa_code]. split; [exact ST|].
        unfold sg_text. cbn [sa_a sa_b sa_c Sequence2String]. exists (dec10 seq), (dec10 x), (hex8 y).
        destruct (dec10_value seq GS) as [V1 W1]. destruct (dec10_value x R1) as [V2 W2]. unfold hex8. destruct (Uint32HexString_value y R2) as [V3 W3].
        split; [reflexivity|]. split; [reflexivity|]. split; [reflexivity|]. split; [exact W3|]. auto.
      * assert (F0 : fresh es r) by (apply fresh_pre in F; exact F). destruct (A ND p r N F0) as [X S]. split; [exact X|].
        destruct (x * 2 ^ 32 + y =? rt_seq r) eqn:Q; [|exact S]. apply Z.eqb_eq in Q. rewrite Q, X in LD. injection LD as ->. rewrite Nat.eqb_refl in PE. discriminate PE.
    + rewrite EC in *. assert (F0 : fresh es r) by (apply fresh_pre in F; exact F). destruct (A ND p r N F0) as [X S]. split; [exact X|].
      destruct (x * 2 ^ 32 + y =? rt_seq r) eqn:Q; [|exact S]. apply Z.eqb_eq in Q. rewrite Q in LD. congruence.
  - rewrite EL in *. rewrite EC in *. cbn [cleanRequestIdCacheMap ca_heap ca_seq] in *. destruct (A ND p r N (fresh_pre _ _ _ F)) as [X S]. split; [|exact S].
    rewrite (load_removes _ ckey_ok); [exact X|]. intros IN. apply in_flat_map in IN as ([k p'] & IN & O). cbn [snd] in O. unfold old in O.
    destruct (nth_error (ca_heap (ct_ca c)) p') as [r'|] eqn:N'; [|destruct O]. destruct (rt_send r' + d <? now) eqn:LT; [|destruct O]. destruct O as [O|[]]. injection O as O.
    assert (P : p' = p).
    { destruct (heap_key c p r I N) as (t1 & R1). destruct (heap_key c p' r' I N') as (t2 & R2). apply (map_nth_error snd) in R1. apply (map_nth_error snd) in R2. cbn [snd] in R1, R2.
      apply (proj1 (NoDup_nth_error _) ND); [apply nth_error_Some; congruence|]. rewrite R1, R2. congruence. }
    subst p'. rewrite N in N'. injection N' as <-. apply Z.ltb_lt in LT. specialize (F d now ltac:(apply in_app_iff; right; left; reflexivity)). lia.
Qed.
Lemma ainv_run pr l es c : crun pr (cstart l) es = Ok c -> Forall got_ok es -> ainv es c.
Proof.
  revert c. induction es as [|e es IH] using rev_ind; intros c H G.
  - cbn in H. injection H as <-. intros _ p r N. destruct p; discriminate N.
  - rewrite crun_app in H. apply bind_ok in H as (c0 & E & H). cbn [crun] in H. apply bind_ok in H as (c1 & E1 & H). injection H as <-. apply Forall_app in G as [G1 G2].
    pose proof (sinv_run pr es _ _ (sinv_start l) E) as I. pose proof (sinv_step pr _ _ _ I E1) as I1.
    apply (ainv_step es e c0 c1 I I1 (Forall_inv G2) (step_kinds pr _ _ _ I E1)). apply IH; assumption.
Qed.

(** ** The query cache *)
Definition gone (heap : list result) (d now : Z) (l : list nat) : bool := match l with [] => true | p :: _ => old heap d now p end.
Lemma sweep_spec h heap d now entries : forall ex batch out ex' batch' out',
  sweep_query h heap d now entries ex batch out = (ex', batch', out') ->
  ex' = ex ++ map fst (filter (fun e => gone heap d now (snd e)) entries)
  /\ concat out' ++ batch' = concat out ++ batch ++ flat_map snd (filter (fun e => gone heap d now (snd e)) entries)
  /\ (Forall (fun b => 64 <= zlen b) out -> Forall (fun b => 64 <= zlen b) out') /\ (h = false -> out' = out) /\ (h = true -> zlen batch < 64 -> zlen batch' < 64).
Proof.
  induction entries as [|[id l] r IH]; intros ex batch out ex' batch' out' H.
  - cbn in H. injection H as <- <- <-. cbn. rewrite !app_nil_r. auto.
  - cbn [sweep_query] in H. set (X := match l with [] => (ex ++ [id], batch) | p :: _ => match nth_error heap p with Some r0 => if rt_send r0 + d <? now then (ex ++ [id], batch ++ l) else (ex, batch) | None => (ex, batch) end end) in H.
    assert (E : X = if gone heap d now l then (ex ++ [id], batch ++ l) else (ex, batch)).
    { unfold X, gone, old. destruct l as [|p l]; [rewrite app_nil_r; reflexivity|]. destruct (nth_error heap p) as [r0|]; [|reflexivity]. destruct (rt_send r0 + d <? now); reflexivity. }
    clearbody X. subst X. cbn [filter snd]. destruct (gone heap d now l); cbv iota in H; cbn [map fst flat_map snd].
    + destruct (h && (64 <=? zlen (batch ++ l))) eqn:B.
      * apply IH in H as (A1 & A2 & A3 & A4 & A5). apply andb_true_iff in B as [-> B]. apply Z.leb_le in B. split; [rewrite A1, <- app_assoc; reflexivity|]. split; [|split; [|split]].
        -- rewrite A2, concat_app. cbn [concat]. rewrite app_nil_r, <- !app_assoc. reflexivity.
        -- intros F. apply A3. apply Forall_app. split; [exact F|]. constructor; [exact B|constructor].
        -- discriminate.
        -- intros _ _. apply A5; [reflexivity|]. reflexivity.
      * apply IH in H as (A1 & A2 & A3 & A4 & A5). split; [rewrite A1, <- app_assoc; reflexivity|]. split; [rewrite A2, <- !app_assoc; reflexivity|]. split; [exact A3|]. split; [exact A4|].
        intros -> L. cbn [andb] in B. apply Z.leb_gt in B. apply A5; [reflexivity|exact B].
    + destruct (h && (64 <=? zlen batch)) eqn:B.
      * apply IH in H as (A1 & A2 & A3 & A4 & A5). apply andb_true_iff in B as [-> B]. apply Z.leb_le in B. split; [exact A1|]. split; [|split; [|split]].
        -- rewrite A2, concat_app. cbn [concat]. rewrite app_nil_r, <- !app_assoc. reflexivity.
        -- intros F. apply A3. apply Forall_app. split; [exact F|]. constructor; [exact B|constructor].
        -- discriminate.
        -- intros _ _. apply A5; reflexivity.
      * apply IH in H as (A1 & A2 & A3 & A4 & A5). split; [exact A1|]. split; [exact A2|]. auto.
Qed.
Lemma in_store {K V} (eqb : K -> K -> bool) (eqb_ok : forall a b, eqb a b = true <-> a = b) k (v : V) m k' v' : In (k', v') (store_at eqb k v m) <-> (k' = k /\ v' = v) \/ (k' <> k /\ In (k', v') m).
Proof.
  unfold store_at, remove. cbn [In]. rewrite filter_In. cbn [fst]. rewrite negb_true_iff. split.
  - intros [H|[H E]]; [injection H as <- <-; auto|]. right. split; [|exact H]. intros ->. rewrite (proj2 (eqb_ok k k) eq_refl) in E. discriminate E.
  - intros [[-> ->]|[D H]]; [left; reflexivity|]. right. split; [exact H|]. destruct (eqb k k') eqn:E; [apply eqb_ok in E; congruence|reflexivity].
Qed.
Lemma NoDup_filter_fst {K V} (f : K * V -> bool) (m : list (K * V)) : NoDup (map fst m) -> NoDup (map fst (filter f m)).
Proof.
  induction m as [|x m IH]; cbn; intros H; [constructor|]. inversion H; subst. destruct (f x); cbn; [|auto]. constructor; [|auto]. intros X. apply H2. apply in_map_iff in X as (y & E & Y). apply filter_In in Y as [Y _]. apply in_map_iff. exists y. auto.
Qed.
Lemma nodup_removes {K V} (eqb : K -> K -> bool) ks : forall (m : list (K * V)), NoDup (map fst m) -> NoDup (map fst (fold_left (fun m k => remove eqb k m) ks m)).
Proof. induction ks as [|k ks IH]; intros m H; cbn [fold_left]; [exact H|]. apply IH. apply NoDup_filter_fst. exact H. Qed.
Lemma nodup_store {V} k (v : V) m : NoDup (map fst m) -> NoDup (map fst (store_at Z.eqb k v m)).
Proof.
  intros H. unfold store_at. cbn [map fst]. constructor; [|apply NoDup_filter_fst; exact H]. intros X. apply in_map_iff in X as ([k' v'] & E & Y). cbn [fst] in E. subst k'. apply filter_In in Y as [_ Y]. cbn [fst] in Y. rewrite Z.eqb_refl in Y. discriminate Y.
Qed.

Inductive qkind (c : cstate) (e : cevent) (c1 : cstate) : Prop :=
| QSame : ca_query (ct_ca c1) = ca_query (ct_ca c) -> (forall t s, nth_error (ct_send c1) t = Some s -> sn_ph s = SDone -> nth_error (ct_send c) t = Some s) -> qkind c e c1
| QDone t s : e = CDone t -> nth_error (ct_send c) t = Some s -> ct_send c1 = firstn t (ct_send c) ++ [phase s [] (sn_res s) SDone] ++ skipn (S t) (ct_send c) ->
    ca_query (ct_ca c1) = store_at Z.eqb (sn_q s) (sn_res s) (ca_query (ct_ca c)) -> qkind c e c1
| QSweep h d now : e = CSweepQ h d now -> ct_send c1 = ct_send c -> ct_ca c1 = fst (cleanQueryCacheMap h (ct_ca c) d now (ca_query (ct_ca c))) -> qkind c e c1.
Lemma qstay c e : qkind c e c.
Proof. apply QSame; [reflexivity|auto]. Qed.
Lemma qput c e c1 t s s1 : ca_query (ct_ca c1) = ca_query (ct_ca c) -> nth_error (ct_send c) t = Some s -> ct_send c1 = firstn t (ct_send c) ++ [s1] ++ skipn (S t) (ct_send c) -> sn_ph s1 <> SDone -> qkind c e c1.
Proof.
  intros Q N S D. apply QSame; [exact Q|]. rewrite S. intros t' s' H DN. rewrite (nth_upd _ _ _ _ N) in H. destruct (t' =? t)%nat; [injection H as <-; contradiction|exact H].
Qed.
Lemma qkinds pr c e c1 : sinv c -> cstep pr c e = Ok c1 -> qkind c e c1.
Proof.
  intros I H. destruct e as [q msg ops phones|t choice d now|t ok now|t now|t|i cmd seq body o|i|h d now|d now|d now]; cbn [cstep] in H.
  - destruct phones; injection H as <-; [apply QSame; [reflexivity|auto]|]. apply QSame; [reflexivity|]. cbn [ct_send]. intros t s H D.
    destruct (Nat.lt_ge_cases t (length (ct_send c))) as [L|L]; [rewrite nth_error_app1 in H by exact L; exact H|].
    rewrite nth_error_app2 in H by exact L. destruct (t - length (ct_send c))%nat; [|destruct n; discriminate H]. cbn in H. injection H as <-. discriminate D.
  - destruct (nth_error (ct_send c) t) as [s|] eqn:N; [|injection H as <-; apply qstay].
    destruct (sn_ph s) eqn:PH; try (injection H as <-; apply qstay). destruct (sn_todo s) as [|phone rest] eqn:TD; [injection H as <-; apply qstay|].
    destruct choice as [i|]; [|injection H as <-; eapply (qput c _ _ t s); [reflexivity|exact N|reflexivity|discriminate]].
    destruct (nth_error (ct_sess c) i) as [ss|] eqn:NS; [|injection H as <-; apply qstay]. destruct (HealthCheck ss); [|injection H as <-; apply qstay].
    destruct (cs_ac ss) as [ac|]; [|injection H as <-; apply qstay]. apply bind_ok in H as (parts & SG & H).
    destruct parts as [|x parts]; injection H as <-.
    + match goal with |- context [used ?c2 i now] => destruct (used_rest c2 i now) as (U1 & U2 & U3) end.
      eapply (qput c _ _ t s (phase s rest (sn_res s) SNext)); [unfold say; cbn [ct_ca]; rewrite U1; reflexivity|exact N|unfold say; cbn [ct_send]; rewrite U2; reflexivity|discriminate].
    + eapply (qput c _ _ t s (phase s rest (sn_res s) (SPart i phone (x :: parts) []))); [reflexivity|exact N|reflexivity|discriminate].
  - destruct (nth_error (ct_send c) t) as [s|] eqn:N; [|injection H as <-; apply qstay].
    destruct (sn_ph s) as [|i phone parts done|i phone b key parts done|] eqn:PH; try (injection H as <-; apply qstay). destruct parts as [|[enc key] r]; [injection H as <-; apply qstay|].
    destruct (nth_error (ct_sess c) i) as [ss|] eqn:NS; [|injection H as <-; apply qstay]. apply bind_ok in H as (b & B & H).
    destruct ok; [injection H as <-; eapply (qput c _ _ t s); [reflexivity|exact N|reflexivity|discriminate]|].
    apply bind_ok in H as (s1 & CL & H). injection H as <-. match goal with |- context [used ?c2 i now] => destruct (used_rest c2 i now) as (U1 & U2 & U3) end.
    eapply (qput c _ _ t s (phase s (sn_todo s) (sn_res s) SNext)); [unfold say; cbn [ct_ca]; rewrite U1; reflexivity|exact N|unfold say; cbn [ct_send]; rewrite U2; reflexivity|discriminate].
  - destruct (nth_error (ct_send c) t) as [s|] eqn:N; [|injection H as <-; apply qstay].
    destruct (sn_ph s) as [|i phone parts done|i phone b key r done|] eqn:PH; try (injection H as <-; apply qstay). cbv zeta in H.
    destruct r as [|x r]; injection H as <-.
    + match goal with |- context [used ?c2 i now] => destruct (used_rest c2 i now) as (U1 & U2 & U3) end.
      eapply (qput c _ _ t s); [rewrite U1; reflexivity|exact N|rewrite U2; reflexivity|discriminate].
    + eapply (qput c _ _ t s); [reflexivity|exact N|reflexivity|discriminate].
  - destruct (nth_error (ct_send c) t) as [s|] eqn:N; [|injection H as <-; apply qstay].
    destruct (sn_ph s) eqn:PH; try (injection H as <-; apply qstay). destruct (sn_todo s) as [|phone rest] eqn:TD; [|injection H as <-; apply qstay].
    injection H as <-. apply (QDone c _ _ t s eq_refl N); reflexivity.
  - destruct (nth_error (ct_sess c) i) as [ss|] eqn:NS; [|injection H as <-; apply qstay]. apply bind_ok in H as ([[s1 ca] out] & G & H). injection H as <-.
    apply handler_eff in G as [GP G]. apply (heff_got c) in G; [|exact I]. apply QSame; [|auto]. cbn [say put_ca ct_ca].
    destruct (cs_p ss); cbn [got_eff] in G; [rewrite G; reflexivity| |rewrite G; reflexivity]. destruct (cmd =? 2147483651); [|rewrite G; reflexivity]. destruct G as (r & D & G). rewrite G. apply answered_keeps.
  - destruct (nth_error (ct_sess c) i) as [ss|] eqn:NS; [|injection H as <-; apply qstay]. apply bind_ok in H as (s1 & CL & H). injection H as <-. apply QSame; [reflexivity|auto].
  - injection H as <-. apply (QSweep c _ _ h d now eq_refl); reflexivity.
  - injection H as <-. apply QSame; [reflexivity|auto].
  - injection H as <-. apply QSame; [reflexivity|auto].
Qed.
(** Sends keep their place and their query id. *)
Lemma sends_keep pr c e c1 t s : cstep pr c e = Ok c1 -> nth_error (ct_send c) t = Some s -> exists s1, nth_error (ct_send c1) t = Some s1 /\ sn_q s1 = sn_q s /\ (sn_ph s = SDone -> s1 = s).
Proof.
  assert (PUT : forall t0 s0 s1 c2, nth_error (ct_send c) t0 = Some s0 -> sn_ph s0 <> SDone -> sn_q s1 = sn_q s0 -> ct_send c2 = firstn t0 (ct_send c) ++ [s1] ++ skipn (S t0) (ct_send c) -> nth_error (ct_send c) t = Some s -> exists s1, nth_error (ct_send c2) t = Some s1 /\ sn_q s1 = sn_q s /\ (sn_ph s = SDone -> s1 = s)).
  { intros t0 s0 s1 c2 N0 ND Q E N. rewrite E, (nth_upd _ _ _ _ N0). destruct (t =? t0)%nat eqn:T; [|eauto]. apply Nat.eqb_eq in T. subst t0. assert (s0 = s) by congruence. subst. exists s1. split; [reflexivity|]. split; [exact Q|contradiction]. }
  intros H N. assert (ST : c1 = c -> exists s1, nth_error (ct_send c1) t = Some s1 /\ sn_q s1 = sn_q s /\ (sn_ph s = SDone -> s1 = s)) by (intros ->; eauto).
  destruct e as [q msg ops phones|t0 choice d now|t0 ok now|t0 now|t0|i cmd seq body o|i|h d now|d now|d now]; cbn [cstep] in H.
  - destruct phones; injection H as <-; [cbn; eauto|]. exists s. split; [|auto]. cbn [ct_send]. rewrite nth_error_app1; [exact N|]. apply nth_error_Some. congruence.
  - destruct (nth_error (ct_send c) t0) as [s0|] eqn:N0; [|injection H as <-; auto].
    destruct (sn_ph s0) eqn:PH; try (injection H as <-; auto). destruct (sn_todo s0) as [|phone rest] eqn:TD; [injection H as <-; auto|].
    destruct choice as [i|]; [|injection H as <-; eapply (PUT t0 s0); [exact N0|congruence| |reflexivity|exact N]; reflexivity].
    destruct (nth_error (ct_sess c) i) as [ss|] eqn:NS; [|injection H as <-; auto]. destruct (HealthCheck ss); [|injection H as <-; auto].
    destruct (cs_ac ss) as [ac|]; [|injection H as <-; auto]. apply bind_ok in H as (parts & SG & H).
    destruct parts as [|x parts]; injection H as <-.
    + match goal with |- context [used ?c2 i now] => destruct (used_rest c2 i now) as (U1 & U2 & U3) end.
      eapply (PUT t0 s0 (phase s0 rest (sn_res s0) SNext)); [exact N0|congruence|reflexivity|unfold say; cbn [ct_send]; rewrite U2; reflexivity|exact N].
    + eapply (PUT t0 s0 (phase s0 rest (sn_res s0) (SPart i phone (x :: parts) []))); [exact N0|congruence|reflexivity|reflexivity|exact N].
  - destruct (nth_error (ct_send c) t0) as [s0|] eqn:N0; [|injection H as <-; auto].
    destruct (sn_ph s0) as [|i phone parts done|i phone b key parts done|] eqn:PH; try (injection H as <-; auto). destruct parts as [|[enc key] r]; [injection H as <-; auto|].
    destruct (nth_error (ct_sess c) i) as [ss|] eqn:NS; [|injection H as <-; auto]. apply bind_ok in H as (b & B & H).
    destruct ok; [injection H as <-; eapply (PUT t0 s0); [exact N0|congruence| |reflexivity|exact N]; reflexivity|].
    apply bind_ok in H as (s1 & CL & H). injection H as <-. match goal with |- context [used ?c2 i now] => destruct (used_rest c2 i now) as (U1 & U2 & U3) end.
    eapply (PUT t0 s0 (phase s0 (sn_todo s0) (sn_res s0) SNext)); [exact N0|congruence|reflexivity|unfold say; cbn [ct_send]; rewrite U2; reflexivity|exact N].
  - destruct (nth_error (ct_send c) t0) as [s0|] eqn:N0; [|injection H as <-; auto].
    destruct (sn_ph s0) as [|i phone parts done|i phone b key r done|] eqn:PH; try (injection H as <-; auto). cbv zeta in H.
    destruct r as [|x r]; injection H as <-.
    + match goal with |- context [used ?c2 i now] => destruct (used_rest c2 i now) as (U1 & U2 & U3) end.
      eapply (PUT t0 s0); [exact N0|congruence| |rewrite U2; reflexivity|exact N]; reflexivity.
    + eapply (PUT t0 s0); [exact N0|congruence| |reflexivity|exact N]; reflexivity.
  - destruct (nth_error (ct_send c) t0) as [s0|] eqn:N0; [|injection H as <-; auto].
    destruct (sn_ph s0) eqn:PH; try (injection H as <-; auto). destruct (sn_todo s0) as [|phone rest] eqn:TD; [|injection H as <-; auto].
    injection H as <-. eapply (PUT t0 s0); [exact N0|congruence| |reflexivity|exact N]; reflexivity.
  - destruct (nth_error (ct_sess c) i) as [ss|] eqn:NS; [|injection H as <-; auto]. apply bind_ok in H as ([[s1 ca] out] & G & H). injection H as <-. cbn. eauto.
  - destruct (nth_error (ct_sess c) i) as [ss|] eqn:NS; [|injection H as <-; auto]. apply bind_ok in H as (s1 & CL & H). injection H as <-. cbn. eauto.
  - injection H as <-. cbn. eauto.
  - injection H as <-. cbn. eauto.
  - injection H as <-. cbn. eauto.
Qed.
Lemma heap_send pr c e c1 p r : sinv c -> cstep pr c e = Ok c1 -> nth_error (ca_heap (ct_ca c)) p = Some r -> exists r1, nth_error (ca_heap (ct_ca c1)) p = Some r1 /\ rt_send r1 = rt_send r.
Proof.
  intros I H N. destruct (step_kinds pr c e c1 I H) as [l EL Q ES EH|t pp phone b now -> EL EH ES|i seq body o rr out -> D EL EC|d now -> EL EC].
  - destruct (map_fwd core _ _ p r (eq_sym EH) N) as (r1 & N1 & E). exists r1. split; [exact N1|]. injection E; auto.
  - exists r. split; [|reflexivity]. rewrite EH, nth_error_app1; [exact N|]. apply nth_error_Some. congruence.
  - rewrite EC. destruct (answered_keeps (ct_ca c) (U64 (Sequence2Uint64 (sh_seq (sr_h rr)))) (sr_status rr) (Sequence2String (sh_seq (sr_h rr))) (g_now o)) as (_ & _ & _ & _ & E & _).
    destruct (map_fwd rt_send _ _ p r (eq_sym E) N) as (r1 & N1 & E1). eauto.
  - rewrite EC. exists r. auto.
Qed.
(** The send was not swept: its first result never was older than the cache time at a sweep; a send
    without results stays only until the first sweep. *)
Definition unswept (es : list cevent) (heap : list result) (l : list nat) : Prop :=
  forall h d now, In (CSweepQ h d now) es -> match l with [] => False | p :: _ => match nth_error heap p with Some r => now <= rt_send r + d | None => False end end.
Definition sole (c : cstate) (t : nat) (s : sender) : Prop := forall t' s', nth_error (ct_send c) t' = Some s' -> sn_q s' = sn_q s -> t' = t.
Definition qinv (es : list cevent) (c : cstate) : Prop :=
  forall t s, nth_error (ct_send c) t = Some s -> sn_ph s = SDone -> sole c t s -> unswept es (ca_heap (ct_ca c)) (sn_res s) -> load Z.eqb (sn_q s) (ca_query (ct_ca c)) = Some (sn_res s).
Lemma in_load {K V} (eqb : K -> K -> bool) k (v : V) m : eqb k k = true -> In (k, v) m -> load eqb k m <> None.
Proof. intros E. induction m as [|[k' v'] m IH]; [intros []|]. intros [H|H]; cbn [load]; [injection H as -> ->; rewrite E; discriminate|]. destruct (eqb k k'); [discriminate|auto]. Qed.
Lemma qinv_step pr es e c c1 : sinv c -> cstep pr c e = Ok c1 -> qinv es c -> qinv (es ++ [e]) c1.
Proof.
  intros I H Q t s N D SO U. 
  assert (BACK : nth_error (ct_send c) t = Some s -> load Z.eqb (sn_q s) (ca_query (ct_ca c)) = Some (sn_res s)).
  { intros N0. apply (Q t s N0 D).
    - intros t' s' N' E'. destruct (sends_keep pr c e c1 t' s' H N') as (s1 & N1 & E1 & _). apply (SO t' s1 N1). congruence.
    - intros h d now X. specialize (U h d now ltac:(apply in_app_iff; auto)). destruct (sn_res s) as [|p l] eqn:R; [exact U|].
      destruct (si_snd _ I t s N0) as [O _]. destruct (O p ltac:(rewrite R; left; reflexivity)) as (ph & k & RC).
      destruct (nth_error (ca_heap (ct_ca c)) p) as [r|] eqn:NP.
      + destruct (heap_send pr c e c1 p r I H NP) as (r1 & NP1 & ES). rewrite NP1 in U. lia.
      + apply nth_error_None in NP. rewrite <- (map_length view_of), (si_heap _ I), map_length in NP. apply nth_error_None in NP. congruence. }
  destruct (qkinds pr c e c1 I H) as [EQ ED|t0 s0 -> N0 ES EQ|h d now -> ES EC].
  - rewrite EQ. apply BACK. apply ED; assumption.
  - rewrite ES, (nth_upd _ _ _ _ N0) in N. rewrite EQ. destruct (t =? t0)%nat eqn:T.
    + injection N as <-. cbn [phase sn_q sn_res]. apply load_store_same. apply Z.eqb_refl.
    + rewrite (load_store_other _ Z.eqb_eq); [apply BACK; exact N|]. intros X. assert (Y : t0 = t); [|subst; rewrite Nat.eqb_refl in T; discriminate T].
      apply (SO t0 (phase s0 [] (sn_res s0) SDone)); [|symmetry; exact X]. rewrite ES, (nth_upd _ _ _ _ N0), Nat.eqb_refl. reflexivity.
  - rewrite ES in N. assert (SO' : sole c t s) by (unfold sole in *; rewrite ES in SO; exact SO). specialize (BACK N). rewrite EC. unfold cleanQueryCacheMap. destruct (sweep_query h (ca_heap (ct_ca c)) d now (ca_query (ct_ca c)) [] [] []) as [[ex ba] out] eqn:SW. cbn [fst ca_query].
    apply sweep_spec in SW as (A1 & _). cbn [app] in A1. rewrite (load_removes _ Z.eqb_eq); [exact BACK|]. subst ex. intros X. apply in_map_iff in X as ([q l] & E & X). cbn [fst] in E. subst q. apply filter_In in X as [X G]. cbn [snd] in G.
    destruct (si_qry _ I _ _ X) as (t' & s' & N' & D' & Q' & R'). assert (t' = t) by (apply (SO' t' s'); assumption). subst t'. rewrite N in N'. injection N' as <-. subst l.
    specialize (U h d now ltac:(apply in_app_iff; right; left; reflexivity)). unfold gone, old in G. destruct (sn_res s) as [|p l]; [exact U|].
    assert (HH : ca_heap (ct_ca c1) = ca_heap (ct_ca c)) by (rewrite EC; unfold cleanQueryCacheMap; destruct (sweep_query _ _ _ _ _ _ _ _) as [[? ?] ?]; reflexivity). rewrite HH in U.
    destruct (nth_error (ca_heap (ct_ca c)) p); [|exact U]. apply Z.ltb_lt in G. lia.
Qed.
Lemma qinv_run pr l es c : crun pr (cstart l) es = Ok c -> qinv es c.
Proof.
  revert c. induction es as [|e es IH] using rev_ind; intros c H.
  - cbn in H. injection H as <-. intros [|t] s N; discriminate N.
  - rewrite crun_app in H. apply bind_ok in H as (c0 & E & H). cbn [crun] in H. apply bind_ok in H as (c1 & E1 & H). injection H as <-.
    pose proof (sinv_run pr es _ _ (sinv_start l) E) as I. apply (qinv_step pr es e c0 c1 I E1). apply IH; assumption.
Qed.
Lemma qnodup_run pr l es c : crun pr (cstart l) es = Ok c -> NoDup (map fst (ca_query (ct_ca c))).
Proof.
  revert c. induction es as [|e es IH] using rev_ind; intros c H.
  - cbn in H. injection H as <-. constructor.
  - rewrite crun_app in H. apply bind_ok in H as (c0 & E & H). cbn [crun] in H. apply bind_ok in H as (c1 & E1 & H). injection H as <-.
    pose proof (sinv_run pr es _ _ (sinv_start l) E) as I. specialize (IH c0 E). destruct (qkinds pr c0 e c1 I E1) as [EQ ED|t0 s0 -> N0 ES EQ|h d now -> ES EC].
    + rewrite EQ. exact IH.
    + rewrite EQ. apply nodup_store. exact IH.
    + rewrite EC. unfold cleanQueryCacheMap. destruct (sweep_query _ _ _ _ _ _ _ _) as [[? ?] ?]. apply nodup_removes. exact IH.
Qed.
