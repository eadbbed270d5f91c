(** * CmppBuildProofs: packets built by NewSubmit, NewDelivery, ToDeliveryReport are well formed. *)
From Verif Require Import Base UtilsModel UtilsProofs OptionsModel SpecWire WireProofs CmppModel SpecCmpp CmppProofs CmppSubmitProofs.

(** Ranges of Go's uint8 fields in the account configuration and in option arguments. *)
Definition ac_wf (ac : authconf) : Prop :=
  is_byte (ac_Version ac) /\ is_byte (ac_NeedReport ac) /\ is_byte (ac_DefaultMsgLevel ac) /\
  is_byte (ac_FeeUserType ac) /\ is_byte (ac_FeeTerminalType ac).
Definition opt_wf (o : mtopt) : Prop :=
  match o with
  | OFeeTerminalType t | OFeeUsertype t | ONeedReport t | OMsgLevel t => is_byte t
  | _ => True
  end.
Definition ops_wf (ops : list mtopt) : Prop := Forall opt_wf ops.

Lemma LoadMtOptions_wf ops : ops_wf ops -> let r := LoadMtOptions ops in
  is_byte (o_NeedReport r) /\ is_byte (o_MsgLevel r) /\ is_byte (o_FeeUsertype r) /\ is_byte (o_FeeTerminalType r).
Proof.
  unfold LoadMtOptions. induction ops as [|o ops IH] using rev_ind; intros H.
  - cbn. unfold is_byte. lia.
  - apply Forall_app in H as [H1 H2]. specialize (IH H1). inversion H2 as [|? ? Ho _]; subst.
    rewrite fold_left_app. cbn [fold_left].
    destruct (fold_left apply_opt ops mt_default) as [nr ml fu ft si fi fty fc vt atm sp li].
    cbn [o_NeedReport o_MsgLevel o_FeeUsertype o_FeeTerminalType] in IH.
    unfold is_byte in *.
    destruct o; cbn [apply_opt o_NeedReport o_MsgLevel o_FeeUsertype o_FeeTerminalType opt_wf] in *; auto;
      unfold is_byte in *;
      repeat match goal with |- context [if ?b then _ else _] => destruct b end; lia.
Qed.

Lemma MsgSlices_ok g fmt content : exists parts, MsgSlices g fmt content = Ok parts /\ parts <> [] /\
  Forall (fun p => zlen p <= 160) parts.
Proof.
  assert (G : forall c n, 6 < n <= 160 -> exists parts, ToTPUDHISlices g c n = Ok parts /\ parts <> [] /\
    Forall (fun p => zlen p <= 160) parts).
  { intros c n Hn. destruct (Z_lt_ge_dec (zlen c) n).
    - rewrite split_short by auto. exists [c]. split; auto. split; [discriminate|]. constructor; [lia|constructor].
    - rewrite split_ok by lia. eexists. split; [reflexivity|].
      pose proof (nparts_bounds (zlen c) (n - 6) ltac:(lia) ltac:(lia)) as Hb.
      assert (1 <= nparts (zlen c) (n - 6)) by nia.
      split.
      + destruct (Z.to_nat (nparts (zlen c) (n - 6))) eqn:E; [lia|]. cbn. discriminate.
      + apply Forall_forall. intros p Hp. apply in_map_iff in Hp as (k & <- & _).
        unfold head6, split_body. rewrite zlen_app.
        change (zlen [5; 0; 3; g; u8 (nparts (zlen c) (n - 6)); u8 (Z.of_nat k + 1)]) with 6.
        pose proof (Z.mod_pos_bound (zlen c) (n - 6) ltac:(lia)).
        destruct (_ =? _); unfold zlen at 1; rewrite firstn_length; lia. }
  unfold MsgSlices. destruct (fmt =? 8); apply G; lia.
Qed.

(** The destination field. *)
Lemma put_ids_ok w : (0 < w)%nat -> forall phones done k, (length phones * w <= k)%nat ->
  put_ids (Z.of_nat w) (Z.of_nat (length done)) phones (render (map (T w) done) ++ repeat 0 k) =
  Ok (render (map (T w) (done ++ phones)) ++ repeat 0 (k - length phones * w)).
Proof.
  intros Hw. induction phones as [|p r IH]; intros done k Hk; cbn [put_ids].
  - rewrite app_nil_r. cbn [length Nat.mul]. rewrite Nat.sub_0_r. reflexivity.
  - cbn [length] in Hk.
    assert (Hz : zlen (render (map (T w) done)) = Z.of_nat (length done) * Z.of_nat w).
    { rewrite zlen_render. clear. induction done; cbn [map widths width length]; lia. }
    rewrite (wr_copy w) by (try lia; rewrite Hz; lia). cbn [bind].
    specialize (IH (done ++ [p]) (k - w)%nat ltac:(lia)).
    rewrite app_length, map_app, render_app in IH. cbn [length map] in IH.
    replace (Z.of_nat (length done + 1)) with (Z.of_nat (length done) + 1) in IH by lia.
    replace (render [T w p]) with (fit w p) in IH by (unfold render; cbn [map concat render1]; rewrite app_nil_r; reflexivity).
    rewrite IH. rewrite <- app_assoc. cbn [app length]. do 3 f_equal. lia.
Qed.
Lemma put_ids_all w phones : (0 < w)%nat ->
  put_ids (Z.of_nat w) 0 phones (zeros (Z.of_nat w * zlen phones)) = Ok (render (map (T w) phones)).
Proof.
  intros Hw. pose proof (put_ids_ok w Hw phones [] (Z.to_nat (Z.of_nat w * zlen phones))) as H.
  cbn [map length] in H. change (render []) with (@nil Z) in H. cbn [app] in H. unfold zeros. change (Z.of_nat 0) with 0 in H.
  rewrite H by (unfold zlen; lia). replace (_ - _)%nat with 0%nat by (unfold zlen; lia).
  rewrite app_nil_r. reflexivity.
Qed.
(** More numbers than the byte-sized count: the copy loop runs over the end. *)
Lemma put_ids_panic w : (0 < w)%nat -> forall phones done k, (k < length phones * w)%nat ->
  put_ids (Z.of_nat w) (Z.of_nat (length done)) phones (render (map (T w) done) ++ repeat 0 k) = Panic.
Proof.
  intros Hw. induction phones as [|p r IH]; intros done k Hk; cbn [put_ids length] in *; [lia|].
  assert (Hz : zlen (render (map (T w) done)) = Z.of_nat (length done) * Z.of_nat w).
  { rewrite zlen_render. clear. induction done; cbn [map widths width length]; lia. }
  destruct (le_lt_dec w k).
  - rewrite (wr_copy w) by (try lia; rewrite Hz; lia). cbn [bind].
    specialize (IH (done ++ [p]) (k - w)%nat ltac:(lia)).
    rewrite app_length, map_app, render_app in IH. cbn [length map] in IH.
    replace (Z.of_nat (length done + 1)) with (Z.of_nat (length done) + 1) in IH by lia.
    replace (render [T w p]) with (fit w p) in IH by (unfold render; cbn [map concat render1]; rewrite app_nil_r; reflexivity).
    exact IH.
  - unfold copy_at. rewrite zlen_app, Hz, zlen_repeat.
    replace (_ && _ && _) with false by lia. reflexivity.
Qed.

Lemma opt_num_wf a b : is_byte a -> is_byte b -> is_byte (opt_num a b).
Proof. unfold opt_num. destruct (negb _); auto. Qed.

(** What the three constructors put into a message, apart from the part-dependent fields. *)
Definition built_from (ac : authconf) (phones : list bytes) (content : bytes) (ops : list mtopt) (vd : bytes) (s : submit) : Prop :=
  let o := LoadMtOptions ops in
  sb_version s = ac_Version ac /\ sb_msgFmt s = MsgFmt content /\ sb_tpPid s = 0 /\
  sb_destUsrTl s = zlen phones /\
  sb_termIds s = render (map (T (if is_v3 (ac_Version ac) then 32%nat else 21%nat)) phones) /\
  sb_msgSrc s = ac_SmsDisplayNo ac /\ sb_destTerminalType s = 0 /\
  sb_registeredDel s = opt_num (o_NeedReport o) (ac_NeedReport ac) /\
  sb_msgLevel s = opt_num (o_MsgLevel o) (ac_DefaultMsgLevel ac) /\
  sb_feeUsertype s = opt_num (o_FeeUsertype o) (ac_FeeUserType ac) /\
  sb_feeTerminalType s = opt_num (o_FeeTerminalType o) (ac_FeeTerminalType ac) /\
  sb_serviceId s = opt_txt (o_ServiceId o) (ac_ServiceId ac) /\
  sb_feeTerminalId s = opt_txt (o_FeeTerminalId o) (ac_FeeTerminalId ac) /\
  sb_feeType s = opt_txt (o_FeeType o) (ac_FeeType ac) /\
  sb_feeCode s = opt_txt (o_FeeCode o) (ac_FeeCode ac) /\
  sb_validTime s = opt_txt (o_ValidTime o) vd /\ sb_atTime s = o_AtTime o /\
  sb_srcId s = ac_SmsDisplayNo ac ++ o_SpSubNo o /\ sb_linkID s = opt_txt (o_LinkID o) (ac_LinkId ac).

(** The part-dependent fields of message [k] of the list. *)
Definition part_of (g : Z) (content : bytes) (seq : Z) (nxt : Z -> Z) (n k : nat) (s : submit) (b : bytes) : Prop :=
  sb_msgContent s = b /\ sb_msgLength s = zlen b /\ h_cmd (sb_h s) = 4 /\
  h_seq (sb_h s) = (if (k =? 0)%nat then seq else nxt (Z.of_nat k)) /\
  sb_pkTotal s = u8 (Z.of_nat n) /\ sb_pkNumber s = u8 (Z.of_nat k + 1) /\
  sb_tpUdhi s = (if (n =? 1)%nat then 0 else 1).

Lemma cmpp_parts_nth base s0 nids total nxt : forall parts i k,
  nth_error (cmpp_parts base s0 nids total nxt i parts) k =
  option_map (fun b => cmpp_part base s0 nids total 1 (u8 (i + Z.of_nat k + 1))
     (if i + Z.of_nat k =? 0 then h_seq (sb_h s0) else nxt (i + Z.of_nat k)) b) (nth_error parts k).
Proof.
  induction parts as [|b r IH]; intros i k; [destruct k; reflexivity|].
  destruct k; cbn [cmpp_parts nth_error option_map].
  - replace (i + Z.of_nat 0) with i by lia. reflexivity.
  - rewrite IH. replace (i + 1 + Z.of_nat k) with (i + Z.of_nat (S k)) by lia. reflexivity.
Qed.
Lemma cmpp_parts_length base s0 nids total nxt : forall parts i,
  length (cmpp_parts base s0 nids total nxt i parts) = length parts.
Proof. induction parts; intros; cbn; auto. Qed.

Lemma NewSubmit_ok ac phones content seq ops vd g nxt :
  ac_wf ac -> ops_wf ops -> zlen phones <= 255 -> 0 <= seq < 2 ^ 32 -> (forall i, 0 <= nxt i < 2 ^ 32) ->
  exists msgs parts, NewSubmit ac phones content seq ops vd g nxt = Ok msgs /\
    MsgSlices g (MsgFmt content) content = Ok parts /\ length msgs = length parts /\ parts <> [] /\
    forall k s b, nth_error msgs k = Some s -> nth_error parts k = Some b ->
      submit_wf s /\ built_from ac phones content ops vd s /\ part_of g content seq nxt (length parts) k s b.
Proof.
  intros (A1 & A2 & A3 & A4 & A5) Hops Hph Hseq Hnxt.
  destruct (LoadMtOptions_wf ops Hops) as (O1 & O2 & O3 & O4).
  destruct (MsgSlices_ok g (MsgFmt content) content) as (parts & Ep & Hne & Hlen).
  unfold NewSubmit. assert (Hn : u8 (zlen phones) = zlen phones) by (apply u8_small; pose proof (zlen_nonneg phones); lia).
  rewrite Hn. set (w := if is_v3 (ac_Version ac) then 32%nat else 21%nat).
  replace (if is_v3 (ac_Version ac) then 32 else 21) with (Z.of_nat w) by (unfold w; destruct (is_v3 _); reflexivity).
  rewrite put_ids_all by (unfold w; destruct (is_v3 _); lia). cbn [bind]. rewrite Ep. cbn [bind].
  assert (Hids : zlen (render (map (T w) phones)) = Z.of_nat w * zlen phones).
  { rewrite zlen_render. unfold zlen. clear. induction phones; cbn [map widths width length]; lia. }
  assert (Hw : 21 <= Z.of_nat w <= 32) by (unfold w; destruct (is_v3 _); lia).
  assert (Hfm : is_byte (MsgFmt content)) by (unfold MsgFmt, is_byte; destruct (_ <? _); [lia|destruct (_ =? _); lia]).
  set (ids := render (map (T w) phones)) in *.
  match goal with |- context [cmpp_parts ?base ?s0 _ _ _ _ _] => set (st := s0); set (bs := base) end.
  assert (Hpart : forall total udhi num sq b, is_byte total -> is_byte udhi -> is_byte num ->
     0 <= sq < 2 ^ 32 -> zlen b <= 160 ->
     submit_wf (cmpp_part bs st (zlen ids) total udhi num sq b) /\
     built_from ac phones content ops vd (cmpp_part bs st (zlen ids) total udhi num sq b)).
  { intros total udhi num sq b T1 T2 T3 T4 T5. split.
    - unfold submit_wf, st, cmpp_part. cbn [sb_h sb_msgId sb_pkTotal sb_pkNumber sb_registeredDel sb_msgLevel
        sb_serviceId sb_feeUsertype sb_feeTerminalId sb_feeTerminalType sb_tpPid sb_tpUdhi sb_msgFmt sb_msgSrc sb_feeType
        sb_feeCode sb_validTime sb_atTime sb_srcId sb_destUsrTl sb_destTerminalId sb_termIds sb_destTerminalType
        sb_msgLength sb_msgContent sb_linkID sb_version h_cmd h_seq h_len].
      repeat match goal with |- _ /\ _ => split end; auto using opt_num_wf; try (unfold is_byte; lia).
      + unfold u32. pose proof (zlen_nonneg b). pose proof (zlen_nonneg phones).
        rewrite Z.mod_small; unfold bs, submit_base; destruct (is_v3 _); nia.
      + unfold is_byte. pose proof (zlen_nonneg phones). lia.
      + unfold is_byte, u8. lia.
    - unfold built_from, st, cmpp_part. cbn [sb_h sb_msgId sb_pkTotal sb_pkNumber sb_registeredDel sb_msgLevel
        sb_serviceId sb_feeUsertype sb_feeTerminalId sb_feeTerminalType sb_tpPid sb_tpUdhi sb_msgFmt sb_msgSrc sb_feeType
        sb_feeCode sb_validTime sb_atTime sb_srcId sb_destUsrTl sb_destTerminalId sb_termIds sb_destTerminalType
        sb_msgLength sb_msgContent sb_linkID sb_version h_cmd h_seq h_len].
      repeat match goal with |- _ /\ _ => split end; auto. }
  assert (Hu8 : forall x, is_byte (u8 x)) by (intros x; unfold is_byte, u8; lia).
  destruct parts as [|b0 [|b1 r]]; [congruence| |].
  - eexists. exists [b0]. split; [reflexivity|]. split; [auto|]. split; [reflexivity|]. split; [discriminate|].
    intros k s b Hk Hb. destruct k; [|destruct k; discriminate]. injection Hk as <-. injection Hb as <-.
    inversion Hlen; subst. destruct (Hpart 1 0 1 seq b0) as [P1 P2]; auto; try (unfold is_byte; lia).
    split; [exact P1|]. split; [exact P2|].
    unfold part_of, st, cmpp_part. cbn. repeat split; auto. rewrite u8_small; auto.
    pose proof (zlen_nonneg b0). lia.
  - eexists. exists (b0 :: b1 :: r). split; [reflexivity|]. split; [auto|].
    split; [apply cmpp_parts_length|]. split; [discriminate|].
    intros k s b Hk Hb. rewrite cmpp_parts_nth, Hb in Hk. cbn [option_map] in Hk.
    replace (0 + Z.of_nat k) with (Z.of_nat k) in Hk by lia. injection Hk as <-.
    assert (Hbl : zlen b <= 160).
    { rewrite Forall_forall in Hlen. apply Hlen. eapply nth_error_In; eauto. }
    destruct (Hpart (u8 (zlen (b0 :: b1 :: r))) 1 (u8 (Z.of_nat k + 1))
       (if Z.of_nat k =? 0 then h_seq (sb_h st) else nxt (Z.of_nat k)) b) as [P1 P2]; auto; try (unfold is_byte; lia).
    { destruct (_ =? 0); [exact Hseq|apply Hnxt]. }
    split; [exact P1|]. split; [exact P2|].
    unfold part_of, cmpp_part, st. cbn [sb_h sb_pkTotal sb_pkNumber sb_tpUdhi sb_msgLength sb_msgContent h_cmd h_seq].
    repeat split; auto.
    + rewrite u8_small; auto. pose proof (zlen_nonneg b). lia.
    + destruct k; reflexivity.
Qed.

Lemma NewSubmit_panics ac phones content seq ops vd g nxt : 255 < zlen phones ->
  NewSubmit ac phones content seq ops vd g nxt = Panic.
Proof.
  intros H. unfold NewSubmit.
  set (w := if is_v3 (ac_Version ac) then 32%nat else 21%nat).
  replace (if is_v3 (ac_Version ac) then 32 else 21) with (Z.of_nat w) by (unfold w; destruct (is_v3 _); reflexivity).
  assert (Hw : (0 < w)%nat) by (unfold w; destruct (is_v3 _); lia).
  pose proof (put_ids_panic w Hw phones [] (Z.to_nat (Z.of_nat w * u8 (zlen phones)))) as P.
  cbn [map length] in P. change (render []) with (@nil Z) in P. cbn [app] in P. unfold zeros. change (Z.of_nat 0) with 0 in P.
  rewrite P; [reflexivity|]. assert (0 <= u8 (zlen phones) < 256) by (unfold u8; lia). unfold zlen in *. nia.
Qed.

(** Splitting the destination field into numbers again. *)
Lemma zlen_ids w phones : zlen (render (map (T w) phones)) = Z.of_nat w * zlen phones.
Proof. rewrite zlen_render. unfold zlen. induction phones; cbn [map widths width length]; lia. Qed.
Lemma b2ss_ids w : forall rest done, Forall (fits w) rest ->
  b2ss_loop (render (map (T w) (done ++ rest))) (Z.of_nat w) (length done) (length rest) = Ok rest.
Proof.
  induction rest as [|p r IH]; intros done H; cbn [b2ss_loop length]; [reflexivity|].
  inversion H; subst.
  rewrite (slice_at _ (render (map (T w) done)) (fit w p) (render (map (T w) r))).
  - cbn [bind]. specialize (IH (done ++ [p]) H3). rewrite app_length in IH. cbn [length] in IH.
    replace (length done + 1)%nat with (S (length done)) in IH by lia. rewrite <- app_assoc in IH. cbn [app] in IH.
    rewrite IH. cbn [bind]. rewrite TrimStr_fits by auto. reflexivity.
  - rewrite map_app, render_app. cbn [map]. unfold render at 2. cbn [map concat render1]. reflexivity.
  - rewrite zlen_ids. unfold zlen. lia.
  - rewrite zlen_fit. lia.
Qed.
Lemma Bytes2StringSlice_ids w phones : (0 < w)%nat -> phones <> [] -> Forall (fits w) phones ->
  Bytes2StringSlice (render (map (T w) phones)) (Z.of_nat w) = Ok phones.
Proof.
  intros Hw Hne HF. unfold Bytes2StringSlice. rewrite zlen_ids.
  destruct phones as [|p [|q r]]; [congruence| |].
  - replace (_ <=? _) with true by (change (zlen [p]) with 1; lia). inversion HF; subst.
    cbn [map]. unfold render. cbn [map concat render1]. rewrite app_nil_r, TrimStr_fits by auto. reflexivity.
  - replace (_ <=? _) with false by (rewrite !zlen_cons; pose proof (zlen_nonneg r); nia).
    replace (Z.of_nat w =? 0) with false by lia.
    rewrite Z.mul_comm, Z.div_mul by lia. unfold zlen. rewrite Nat2Z.id.
    apply (b2ss_ids w (p :: q :: r) [] HF).
Qed.

(** Take apart a successful chain of binds. *)
Ltac inv_bind H :=
  repeat (cbv zeta in H;
    match type of H with
    | bind _ _ = Ok _ => let x := fresh "x" in let E := fresh "E" in apply bind_ok in H as (x & E & H); cbv beta in H
    | (let '(_, _) := ?x in _) = Ok _ => destruct x
    | match ?x with (_, _) => _ end = Ok _ => destruct x
    end).

(** Reading the destination field of a 2.x submit: 21*count mod 256 bytes are taken. *)
Lemma Submit_Decode_v2_ids s seq d : submit_wf s -> is_v3 (sb_version s) = false ->
  Submit_Decode (sb_version s) seq (render (submit_body (is_v3 (sb_version s)) s)) = Ok d ->
  sb_destUsrTl d = sb_destUsrTl s /\ zlen (sb_termIds d) = u8 (sb_destUsrTl s * 21).
Proof.
  intros (Hc & Hs & Hl & H1 & H2 & H3 & H4 & H5 & H6 & H7 & H8 & H9 & H10 & H11 & H12 & H13) Hv.
  unfold Submit_Decode. rewrite Hv. unfold submit_body.
  cbn [app]; ropen Hb; rewrite app_assoc in Hb. do 17 rstep Hb. intros H.
  inv_bind H. injection H as <-. cbn [sb_destUsrTl sb_termIds]. split; auto.
  match goal with E : slice body _ (_ + u8 _) = Ok _ |- _ => apply slice_len in E; rewrite E end. lia.
Qed.
