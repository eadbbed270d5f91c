(** * PropPanics: property C46 (no packet body can crash a decoder): refuted; here is for each
    decoder the exact set of bodies that crash it. *)
From Verif Require Import Base UtilsModel OptionsModel CmppModel CmppBuildProofs SgipModel TlvModel SmgpModel.

(** [D] yields a value exactly when [safe] holds and panics otherwise; it never reports an error. *)
Definition crashes_unless {A} (safe : Prop) (D : res A) : Prop :=
  (safe /\ exists d, D = Ok d) \/ (~ safe /\ D = Panic).
(** The byte at position [i]. *)
Definition byte_at (f : bytes) (i : Z) (x : Z) : Prop := 0 <= i /\ nth_error f (Z.to_nat i) = Some x.
(** Message contents the long-message check survives: not empty, not ending inside the marker
    05 00 03, and at least six bytes long behind the full marker. *)
Definition content_safe (c : bytes) : Prop :=
  c <> [] /\ c <> [5] /\ c <> [5; 0] /\ (firstn 3 c = [5; 0; 3] -> 6 <= zlen c).

(** ** Tools *)
Lemma crash_intro {A} (safe : Prop) (D : res A) :
  (forall d, D = Ok d -> safe) -> (safe -> exists d, D = Ok d) -> (forall e, D <> Err e) -> crashes_unless safe D.
Proof.
  intros H1 H2 H3. destruct D as [d|e|] eqn:E; [left; eauto| |].
  - exfalso. apply (H3 e). reflexivity.
  - right. split; [|reflexivity]. intros S. destruct (H2 S) as [d Hd]. discriminate.
Qed.
Lemma bind_noerr {A B} (a : res A) (g : A -> res B) : (forall e, a <> Err e) -> (forall x e, g x <> Err e) -> forall e, bind a g <> Err e.
Proof. intros H1 H2 e. destruct a; cbn [bind]; [apply H2|intros E; eapply H1; eauto|discriminate]. Qed.
Lemma get_be_noerr n f lo hi : forall e, get_be n f lo hi <> Err e.
Proof. apply bind_noerr; [apply slice_noerr|]. intros x e. destruct (_ <=? _); discriminate. Qed.
Lemma get_be_ok_iff n f lo hi : (exists v, get_be n f lo hi = Ok v) <-> 0 <= lo /\ lo + Z.of_nat n <= hi /\ hi <= zlen f.
Proof.
  unfold get_be. split.
  - intros [v H]. apply bind_ok in H as (s & E & H). cbv beta in H. pose proof (slice_len _ _ _ _ E).
    assert (B : exists s, slice f lo hi = Ok s) by eauto. apply slice_ok_iff in B.
    destruct (Z.of_nat n <=? zlen s) eqn:C; [|discriminate]. lia.
  - intros H. destruct (proj2 (slice_ok_iff f lo hi) ltac:(lia)) as [s E]. rewrite E. cbn [bind].
    pose proof (slice_len _ _ _ _ E). replace (_ <=? _) with true by lia. eauto.
Qed.
Lemma at_byte f i x : at_ f i = Ok x <-> byte_at f i x.
Proof.
  unfold at_, byte_at. destruct ((0 <=? i) && (i <? zlen f)) eqn:C.
  - destruct (nth_error f (Z.to_nat i)) eqn:E; split; intros H; try discriminate.
    + injection H as <-. split; [lia|reflexivity].
    + destruct H as [_ H]. congruence.
    + destruct H as [_ H]. discriminate.
  - split; [discriminate|]. intros [H0 H]. assert (Z.to_nat i < length f)%nat by (apply nth_error_Some; congruence). unfold zlen in C. lia.
Qed.
Lemma byte_at_lt f i x : byte_at f i x -> 0 <= i < zlen f.
Proof. intros [H0 H]. assert (Z.to_nat i < length f)%nat by (apply nth_error_Some; congruence). unfold zlen. lia. Qed.
Lemma at_bound (f : bytes) i x : at_ f i = Ok x -> 0 <= i < zlen f.
Proof. intros H. apply at_byte in H. eapply byte_at_lt; eauto. Qed.
Lemma slice_bound (f : bytes) lo hi s : slice f lo hi = Ok s -> 0 <= lo <= hi /\ hi <= zlen f.
Proof. intros H. apply slice_ok_iff. eauto. Qed.
Lemma get_be_bound n f lo hi v : get_be n f lo hi = Ok v -> 0 <= lo /\ lo + Z.of_nat n <= hi /\ hi <= zlen f.
Proof. intros H. apply get_be_ok_iff. eauto. Qed.

(** Collect the bounds of all successful reads; run all reads whose bounds are known. *)
Ltac bounds := repeat match goal with
  | H : at_ ?f ?i = Ok ?x |- _ => lazymatch goal with K : 0 <= i < @zlen Z f |- _ => fail | _ => pose proof (at_bound f i x H) end
  | H : slice ?f ?lo ?hi = Ok ?x |- _ => lazymatch goal with K : 0 <= lo <= hi /\ hi <= @zlen Z f |- _ => fail | _ => pose proof (slice_bound f lo hi x H) end
  | H : get_be ?n ?f ?lo ?hi = Ok ?x |- _ => lazymatch goal with K : 0 <= lo /\ lo + Z.of_nat n <= hi /\ hi <= @zlen Z f |- _ => fail | _ => pose proof (get_be_bound n f lo hi x H) end
  end.
Ltac inv_all H := inv_bind H; try match type of H with (if ?b then _ else _) = _ => destruct b eqn:?; inv_all H end.
Ltac nread := cbv zeta; match goal with
  | |- context [bind (slice ?f ?lo ?hi) _] => let E := fresh "E" in destruct (proj2 (slice_ok_iff f lo hi)) as [? E]; [lia|]; rewrite E; cbn [bind]
  | |- context [bind (at_ ?f ?i) _] => let E := fresh "E" in destruct (proj2 (at_ok_iff f i)) as [? E]; [lia|]; rewrite E; cbn [bind]
  | |- context [bind (get_be ?n ?f ?lo ?hi) _] => let E := fresh "E" in destruct (proj2 (get_be_ok_iff n f lo hi)) as [? E]; [lia|]; rewrite E; cbn [bind]
  end.
Ltac noerr := intros; repeat (cbv zeta; first
  [ apply bind_noerr; [first [apply slice_noerr|apply at_noerr|apply get_be_noerr|idtac]|intros]
  | discriminate
  | apply slice_noerr | apply at_noerr | apply get_be_noerr
  | match goal with |- context [match ?x with (_, _) => _ end] => destruct x end
  | match goal with |- context [if ?b then _ else _] => destruct b end ]).
(** A decoder that needs [n] bytes and no more. *)
Ltac fixed D := apply crash_intro;
  [ let H := fresh in intros ? H; unfold D in H; inv_bind H; bounds; lia
  | intros; unfold D; repeat nread; eauto
  | unfold D; noerr ].

(** ** Fixed-size packets *)
Theorem C46_cmpp_connect : forall seq f, crashes_unless (27 <= zlen f) (Connect_Decode seq f).
Proof. intros. fixed Connect_Decode. Qed.
Theorem C46_cmpp_connect_resp : forall ver seq f,
  crashes_unless ((if is_v3 ver then 21 else 18) <= zlen f) (ConnectResp_Decode ver seq f).
Proof. intros. unfold ConnectResp_Decode. destruct (is_v3 ver); cbv zeta; cbn [Z.add]; fixed ConnectResp_Decode. Qed.
Theorem C46_cmpp_resp : forall cmd ver seq f,
  crashes_unless ((if is_v3 ver then 12 else 9) <= zlen f) (cresp_Decode cmd ver seq f).
Proof. intros. unfold cresp_Decode. destruct (is_v3 ver); fixed cresp_Decode. Qed.
Theorem C46_cmpp_report : forall f, crashes_unless (60 <= zlen f) (Report_Decode f).
Proof. intros. fixed Report_Decode. Qed.
Theorem C46_smgp_login : forall seq f, crashes_unless (30 <= zlen f) (Login_Decode seq f).
Proof. intros. fixed Login_Decode. Qed.
Theorem C46_smgp_login_resp : forall seq f, crashes_unless (21 <= zlen f) (LoginRsp_Decode seq f).
Proof. intros. fixed LoginRsp_Decode. Qed.
Theorem C46_smgp_resp : forall cmd ver seq f, crashes_unless (14 <= zlen f) (mresp_Decode cmd ver seq f).
Proof. intros. fixed mresp_Decode. Qed.
Theorem C46_smgp_report : forall f, crashes_unless (96 <= zlen f) (mreport_Decode f).
Proof. intros. fixed mreport_Decode. Qed.
Theorem C46_sgip_bind : forall node f, crashes_unless (41 <= zlen f) (Bind_Decode node f).
Proof. intros. fixed Bind_Decode. Qed.
Theorem C46_sgip_resp : forall cmd node f, crashes_unless (9 <= zlen f) (srsp_Decode cmd node f).
Proof. intros. fixed srsp_Decode. Qed.
Theorem C46_sgip_unbind : forall cmd node f, crashes_unless (8 <= zlen f) (Unbind_Decode cmd node f).
Proof. intros. fixed Unbind_Decode. Qed.
Theorem C46_sgip_report : forall node f, crashes_unless (44 <= zlen f) (SReport_Decode node f).
Proof. intros. fixed SReport_Decode. Qed.

(** ** Packets whose layout depends on their contents *)
Ltac byte_pos f i := match goal with H : at_ f i = Ok ?x |- _ => apply at_byte in H end.
Lemma at_is_byte (f : bytes) i x : bytes_ok f -> at_ f i = Ok x -> is_byte x.
Proof. intros Hf H. apply at_byte in H as [_ H]. apply nth_error_In in H. unfold bytes_ok in Hf. rewrite Forall_forall in Hf. auto. Qed.
Lemma strip_safe c : (exists r, strip_udh c = Ok r) <-> content_safe c.
Proof.
  unfold strip_udh, content_safe. split.
  - intros [r H]. inv_all H; bounds.
    all: repeat match goal with H : at_ _ _ = Ok _ |- _ => apply at_byte in H as [_ H] end.
    all: destruct c as [|c0 [|c1 [|c2 c]]]; try (unfold zlen in *; cbn [length] in *; lia).
    all: repeat match goal with H : nth_error _ _ = Some _ |- _ => cbn in H; first [discriminate H | injection H as H] end; subst.
    all: repeat match goal with H : (_ =? _) = true |- _ => apply Z.eqb_eq in H | H : (_ =? _) = false |- _ => apply Z.eqb_neq in H end; subst.
    all: split; [discriminate|]; split; [intros X; inversion X; subst; congruence|]; split; [intros X; inversion X; subst; congruence|]; cbn [firstn]; intros X; inversion X; subst; try congruence; try lia.
  - intros (H0 & H1 & H2 & H3). destruct c as [|c0 c]; [congruence|].
    change (at_ (c0 :: c) 0) with (at_ ((c0 :: c) ++ []) 0). rewrite app_nil_r.
    assert (A0 : at_ (c0 :: c) 0 = Ok c0) by (apply at_byte; split; [lia|reflexivity]). rewrite A0. cbn [bind].
    destruct (c0 =? 5) eqn:C0; [|eauto]. apply Z.eqb_eq in C0. subst c0.
    destruct c as [|c1 c]; [congruence|].
    assert (A1 : at_ (5 :: c1 :: c) 1 = Ok c1) by (apply at_byte; split; [lia|reflexivity]). rewrite A1. cbn [bind].
    destruct (c1 =? 0) eqn:C1; [|eauto]. apply Z.eqb_eq in C1. subst c1.
    destruct c as [|c2 c]; [congruence|].
    assert (A2 : at_ (5 :: 0 :: c2 :: c) 2 = Ok c2) by (apply at_byte; split; [lia|reflexivity]). rewrite A2. cbn [bind].
    destruct (c2 =? 3) eqn:C2; [|eauto]. apply Z.eqb_eq in C2. subst c2.
    specialize (H3 eq_refl). nread. eauto.
Qed.
Lemma strip_noerr c : forall e, strip_udh c <> Err e.
Proof. unfold strip_udh. noerr. Qed.
Lemma cut_safe c : (exists r, cut_udh c = Ok r) <-> content_safe c.
Proof.
  rewrite <- strip_safe. unfold cut_udh, strip_udh.
  destruct (at_ c 0) as [b0| |]; cbn [bind]; try tauto. destruct (b0 =? 5); [|tauto].
  destruct (at_ c 1) as [b1| |]; cbn [bind]; try tauto. destruct (b1 =? 0); [|tauto].
  destruct (at_ c 2) as [b2| |]; cbn [bind]; try tauto. destruct (b2 =? 3); [|tauto].
  destruct (slice c 6 (zlen c)); cbn [bind]; split; intros [r H]; try discriminate; eauto.
Qed.
Lemma cut_noerr c : forall e, cut_udh c <> Err e.
Proof. unfold cut_udh. noerr. Qed.
Lemma users_inv (f : bytes) n : forall i u j, get_users f i n = Ok (u, j) -> j = i + 21 * Z.of_nat n /\ (0 <= i <= zlen f -> j <= zlen f).
Proof.
  induction n as [|n IH]; intros i u j H; cbn [get_users] in H.
  - injection H as _ <-. split; [lia|]. intros. lia.
  - inv_bind H. injection H as _ <-. bounds. match goal with H : get_users _ _ _ = Ok (_, _) |- _ => apply IH in H as [? ?] end.
    split; [lia|]. intros. lia.
Qed.
Lemma users_run (f : bytes) n : forall i, 0 <= i -> i + 21 * Z.of_nat n <= zlen f -> exists u, get_users f i n = Ok (u, i + 21 * Z.of_nat n).
Proof.
  induction n as [|n IH]; intros i H0 H1; cbn [get_users].
  - exists []. do 2 f_equal. lia.
  - nread. destruct (IH (i + 21)) as [u Hu]; [lia..|]. rewrite Hu. cbn [bind]. eexists. do 2 f_equal. lia.
Qed.
Lemma users_noerr f n : forall i e, get_users f i n <> Err e.
Proof. induction n as [|n IH]; intros i e; cbn [get_users]; [discriminate|]. revert e. noerr. apply IH. Qed.
Lemma terms_users f n : forall i, get_terms f i n = get_users f i n.
Proof. induction n as [|n IH]; intros i; cbn [get_users get_terms]; [reflexivity|]. rewrite IH. reflexivity. Qed.

(** Number block and content of a CMPP submit. *)
Definition submit_safe (three : bool) (f : bytes) : Prop := exists n ml c,
  let base := if three then 128 else 116 in
  let l := if three then n * 32 else (n * 21) mod 256 in
  let p := base + 1 + l + (if three then 1 else 0) in
  byte_at f base n /\ byte_at f p ml /\ slice f (p + 1) (p + 1 + ml) = Ok c /\ content_safe c /\
  (if three then p + 1 + ml + 20 <= zlen f else True).

(** Invert everything the decoder read. *)
Ltac inv_deep := repeat match goal with
  | H : bind _ _ = Ok _ |- _ => inv_bind H
  | H : Ok (_, _) = Ok (_, _) |- _ => injection H; clear H; intros; subst
  | H : Ok _ = Ok _ |- _ => clear H
  end.
Lemma at_to f i j x : at_ f i = Ok x -> i = j -> byte_at f j x.
Proof. intros H <-. apply at_byte, H. Qed.
Lemma at_from f i j x : byte_at f j x -> i = j -> at_ f i = Ok x.
Proof. intros H ->. apply at_byte, H. Qed.
Lemma slice_to (f : bytes) lo hi lo' hi' x : slice f lo hi = Ok x -> lo = lo' -> hi = hi' -> slice f lo' hi' = Ok x.
Proof. intros H <- <-. exact H. Qed.
Ltac give := first [eapply at_to; [eassumption|lia] | eapply slice_to; [eassumption|lia|lia] | eassumption | lia | exact I].
(** Read the byte or piece [E] speaks of at the next read of the decoder. *)
Ltac known E := cbv zeta; match goal with
  | |- context [bind (at_ ?f ?i) _] => let K := fresh "K" in assert (K : at_ f i = Ok _) by (eapply at_from; [exact E|lia]); rewrite K; cbn [bind]
  | |- context [bind (slice ?f ?lo ?hi) _] => let K := fresh "K" in assert (K : slice f lo hi = Ok _) by (eapply slice_to; [exact E|lia|lia]); rewrite K; cbn [bind]
  end.
Ltac strip Hc := let r := fresh "r" in let K := fresh "K" in destruct (proj2 (strip_safe _) Hc) as [r K]; rewrite K; cbn [bind].
Theorem C46_cmpp_submit : forall ver seq f, bytes_ok f -> crashes_unless (submit_safe (is_v3 ver) f) (Submit_Decode ver seq f).
Proof.
  intros ver seq f Hf. apply crash_intro.
  - intros d H. unfold Submit_Decode in H. destruct (is_v3 ver).
    all: inv_bind H; clear H; inv_deep; match goal with H : strip_udh _ = Ok _ |- _ => pose proof (proj1 (strip_safe _) (ex_intro _ _ H)) end.
    + bounds. exists x14, x16, x17. cbv zeta. split; [give|]. split; [give|]. split; [give|]. split; give.
    + bounds. unfold u8 in *. exists x14, x16, x17. cbv zeta. split; [give|]. split; [give|]. split; [give|]. split; give.
  - intros (n & ml & c & H). unfold Submit_Decode. destruct (is_v3 ver).
    all: cbv zeta in H; destruct H as (Hn & Hm & Hc & Hs & Ht); pose proof (byte_at_lt _ _ _ Hn); pose proof (byte_at_lt _ _ _ Hm); bounds.
    all: assert (0 <= n < 256) by (eapply (at_is_byte f); [exact Hf|apply at_byte; exact Hn]).
    + do 6 nread. nread. nread. do 9 nread. known Hn. nread. nread. known Hm. known Hc. strip Hs. nread. eauto.
    + do 6 nread. nread. do 9 nread. known Hn. change (u8 (n * 21)) with ((n * 21) mod 256).
      pose proof (Z.mod_pos_bound (n * 21) 256 ltac:(lia)). nread. known Hm. known Hc. strip Hs. eauto.
  - unfold Submit_Decode. noerr.
Qed.

(** A CMPP delivery: the stated content must be there; a status report needs 60 bytes up to the
    end of the body, whatever length is stated. *)
Definition delivery_safe (three : bool) (f : bytes) : Prop := exists rd ml,
  let p := if three then 75 else 63 in
  byte_at f p rd /\ byte_at f (p + 1) ml /\ p + 2 + ml + (if three then 20 else 0) <= zlen f /\ (rd = 1 -> p + 2 + 60 <= zlen f).
Lemma report_run f : 60 <= zlen f -> exists r, Report_Decode f = Ok r.
Proof. intros H. destruct (C46_cmpp_report f) as [[_ K]|[K _]]; [exact K|lia]. Qed.
Lemma report_len f r : Report_Decode f = Ok r -> 60 <= zlen f.
Proof. intros H. destruct (C46_cmpp_report f) as [[K _]|[_ K]]; [exact K|congruence]. Qed.
Theorem C46_cmpp_delivery : forall ver seq f, bytes_ok f -> crashes_unless (delivery_safe (is_v3 ver) f) (Delivery_Decode ver seq f).
Proof.
  intros ver seq f Hf. apply crash_intro.
  - intros d H. unfold Delivery_Decode in H. destruct (is_v3 ver).
    all: inv_bind H; clear H; inv_deep.
    all: match goal with H : at_ _ (63) = Ok ?x |- _ => exists x | H : at_ _ (75) = Ok ?x |- _ => exists x end.
    all: match goal with H : at_ _ (63 + 1) = Ok ?x |- _ => exists x | H : at_ _ (75 + 1) = Ok ?x |- _ => exists x end.
    all: cbv zeta; bounds; split; [give|]; split; [give|].
    all: match goal with H : (if ?r =? 1 then _ else _) = Ok _ |- _ => destruct (r =? 1) eqn:C end.
    all: inv_deep; bounds; try match goal with H : Report_Decode _ = Ok _ |- _ => apply report_len in H end.
    all: repeat match goal with H : slice _ _ _ = Ok _ |- _ => apply slice_len in H end.
    all: lia.
  - intros (rd & ml & H). unfold Delivery_Decode. destruct (is_v3 ver).
    all: cbv zeta in H; destruct H as (Hr & Hm & Hl & Ht); pose proof (byte_at_lt _ _ _ Hr); pose proof (byte_at_lt _ _ _ Hm).
    all: assert (0 <= ml < 256) by (eapply (at_is_byte f); [exact Hf|apply at_byte; exact Hm]).
    + do 8 nread. known Hr. known Hm. nread. destruct (rd =? 1) eqn:C.
      * apply Z.eqb_eq in C. specialize (Ht C). nread.
        match goal with H : slice f _ (zlen f) = Ok ?e |- _ => pose proof (slice_len _ _ _ _ H); destruct (report_run e) as [r Hp]; [lia|] end.
        rewrite Hp. cbn [bind]. repeat nread. eauto.
      * cbn [bind]. repeat nread. eauto.
    + do 7 nread. known Hr. known Hm. nread. destruct (rd =? 1) eqn:C.
      * apply Z.eqb_eq in C. specialize (Ht C). nread.
        match goal with H : slice f _ (zlen f) = Ok ?e |- _ => pose proof (slice_len _ _ _ _ H); destruct (report_run e) as [r Hp]; [lia|] end.
        rewrite Hp. cbn [bind]. repeat nread. eauto.
      * cbn [bind]. repeat nread. eauto.
  - unfold Delivery_Decode. noerr.
Qed.

(** SGIP submit: [n] numbers of 21 bytes, 68 fixed bytes, a four-byte length, the content. *)
Definition sgip_submit_safe (f : bytes) : Prop := exists n ml c,
  let p := 51 + 21 * n + 68 in
  byte_at f 50 n /\ get_be 4 f p (zlen f) = Ok ml /\ slice f (p + 4) (p + 4 + ml) = Ok c /\ content_safe c.
Theorem C46_sgip_submit : forall node f, bytes_ok f -> crashes_unless (sgip_submit_safe f) (SSubmit_Decode node f).
Proof.
  intros node f Hf. apply crash_intro.
  - intros d H. unfold SSubmit_Decode in H. inv_bind H. clear H. 
    match goal with H : strip_udh _ = Ok _ |- _ => pose proof (proj1 (strip_safe _) (ex_intro _ _ H)) end.
    match goal with H : get_users _ _ _ = Ok _ |- _ => apply users_inv in H as [U1 U2] end.
    match goal with H : at_ f 50 = Ok ?x |- _ => assert (0 <= x < 256) by (eapply (at_is_byte f); [exact Hf|exact H]); exists x; rewrite Z2Nat.id in U1 by lia end.
    match goal with H : get_be 4 f (_ + _) _ = Ok ?x |- _ => exists x end.
    match goal with H : content_safe ?x |- _ => exists x end.
    bounds. cbv zeta. split; [give|]. split; [|split; give].
    match goal with H : get_be 4 f (_ + _) _ = Ok ?x |- _ => etransitivity; [|exact H] end. f_equal; lia.
  - intros (n & ml & c & H). unfold SSubmit_Decode. cbv zeta in H. destruct H as (Hn & Hm & Hc & Hs). bounds. pose proof (byte_at_lt _ _ _ Hn).
    assert (0 <= n < 256) by (eapply (at_is_byte f); [exact Hf|apply at_byte; exact Hn]).
    known Hn. destruct (users_run f (Z.to_nat n) 51) as [u Hu]; [lia..|]. rewrite Hu. cbn [bind].
    rewrite Z2Nat.id by lia. cbv zeta.
    match goal with |- context [bind (get_be 4 f (?i + ?j) (zlen f)) _] => assert (KM : get_be 4 f (i + j) (zlen f) = Ok ml) end.
    { etransitivity; [|exact Hm]. f_equal. lia. }
    rewrite KM. cbn [bind]. known Hc. strip Hs. repeat nread. eauto.
  - unfold SSubmit_Decode. noerr. apply users_noerr.
Qed.
Definition sgip_deliver_safe (f : bytes) : Prop := exists ml, get_be 4 f 53 (zlen f) = Ok ml /\ 57 + ml <= zlen f.
Theorem C46_sgip_deliver : forall node f, bytes_ok f -> crashes_unless (sgip_deliver_safe f) (SDeliver_Decode node f).
Proof.
  intros node f Hf. apply crash_intro.
  - intros d H. unfold SDeliver_Decode in H. inv_bind H. clear H. bounds.
    match goal with H : get_be 4 f 53 _ = Ok ?x |- _ => exists x; split; [exact H|lia] end.
  - intros (ml & Hm & Hl). unfold SDeliver_Decode. bounds. rewrite Hm.
    assert (0 <= ml). { unfold get_be in Hm. inv_bind Hm. destruct (_ <=? _); [|discriminate]. injection Hm as <-.
      match goal with H : slice _ _ _ = Ok _ |- _ => pose proof (slice_bytes_ok _ _ _ _ Hf H) as B end. change (0 <= unbe (firstn 4 x)). apply unbe_range. apply bytes_ok_firstn. exact B. }
    repeat nread. eauto.
  - unfold SDeliver_Decode. noerr.
Qed.

(** SMGP submit: [n] numbers of 21 bytes, a one-byte length, the content, eight reserved bytes. *)
Definition smgp_submit_safe (f : bytes) : Prop := exists n ml c,
  let p := 105 + 21 * n in
  byte_at f 104 n /\ byte_at f p ml /\ slice f (p + 1) (p + 1 + ml) = Ok c /\ content_safe c /\ p + 1 + ml + 8 <= zlen f.
Theorem C46_smgp_submit : forall gbd ver seq f, bytes_ok f -> crashes_unless (smgp_submit_safe f) (MSubmit_Decode gbd ver seq f).
Proof.
  intros gbd ver seq f Hf. apply crash_intro.
  - intros d H. unfold MSubmit_Decode in H. inv_bind H. clear H. 
    match goal with H : cut_udh _ = Ok _ |- _ => pose proof (proj1 (cut_safe _) (ex_intro _ _ H)) end.
    match goal with H : get_terms _ _ _ = Ok _ |- _ => rewrite terms_users in H; apply users_inv in H as [U1 U2] end.
    match goal with H : at_ f 104 = Ok ?x |- _ => assert (0 <= x < 256) by (eapply (at_is_byte f); [exact Hf|exact H]); exists x; rewrite Z2Nat.id in U1 by lia end.
    match goal with H : at_ f z = Ok ?x |- _ => exists x end.
    match goal with H : content_safe ?x |- _ => exists x end.
    bounds. cbv zeta. split; [give|]. split; [give|]. split; [give|]. split; give.
  - intros (n & ml & c & H). unfold MSubmit_Decode. cbv zeta in H. destruct H as (Hn & Hm & Hc & Hs & Hl). bounds. pose proof (byte_at_lt _ _ _ Hn).
    assert (0 <= n < 256) by (eapply (at_is_byte f); [exact Hf|apply at_byte; exact Hn]).
    assert (0 <= ml < 256) by (eapply (at_is_byte f); [exact Hf|apply at_byte; exact Hm]).
    known Hn. rewrite terms_users. destruct (users_run f (Z.to_nat n) 105) as [u Hu]; [lia..|]. rewrite Hu. cbn [bind].
    rewrite Z2Nat.id by lia. known Hm. known Hc. destruct (proj2 (cut_safe _) Hs) as [r Kr]; rewrite Kr; cbn [bind]. nread.
    match goal with |- context [if ?b then _ else _] => destruct b end; [nread|cbn [bind]]; repeat nread; eauto.
  - unfold MSubmit_Decode. noerr. rewrite terms_users. apply users_noerr.
Qed.

(** SMGP delivery: here a text that is not valid GB18030 is reported as an error; the crashing
    bodies do not depend on that. *)
Definition smgp_deliver_safe (f : bytes) : Prop := exists rd ml,
  byte_at f 10 rd /\ byte_at f 68 ml /\ (if rd =? 1 then 191 else 69 + ml) <= zlen f.
Theorem C46_smgp_deliver : forall gbd ver seq f, bytes_ok f ->
  (smgp_deliver_safe f /\ ((exists d, MDeliver_Decode gbd ver seq f = Ok d) \/
     exists rd ml t, byte_at f 10 rd /\ rd <> 1 /\ byte_at f 68 ml /\ slice f 69 (69 + ml) = Ok t /\ gbd t = None /\ MDeliver_Decode gbd ver seq f = Err 1)) \/
  (~ smgp_deliver_safe f /\ MDeliver_Decode gbd ver seq f = Panic).
Proof.
  intros gbd ver seq f Hf.
  destruct (crash_intro (69 <= zlen f) (id <- slice f 0 10 ;; ir <- at_ f 10 ;; mf <- at_ f 11 ;; rt <- slice f 12 26 ;; src <- slice f 26 47 ;;
    dst <- slice f 47 68 ;; ml <- at_ f 68 ;; Ok (ir, ml))) as [[L [[rd ml] H]]|[L H]].
  - intros d H. inv_bind H. bounds. lia.
  - intros. do 7 nread. eauto.
  - noerr.
  - inv_bind H. injection H as -> ->. unfold MDeliver_Decode. rewrite E, E0, E1, E2, E3, E4, E5. cbn [bind].
    assert (0 <= ml < 256) by (eapply (at_is_byte f); [exact Hf|exact E5]).
    apply at_byte in E0. apply at_byte in E5. destruct (rd =? 1) eqn:C.
    + change (69 + RptLen) with 191. destruct (Z_le_gt_dec 191 (zlen f)) as [G|G].
      * left. split; [exists rd, ml; rewrite C; auto|]. left. nread.
        match goal with H : slice f 69 191 = Ok ?e |- _ => pose proof (slice_len _ _ _ _ H); destruct (C46_smgp_report e) as [[_ [r Hr]]|[B _]]; [|lia] end.
        rewrite Hr. cbn [bind]. repeat nread. eauto.
      * right. assert (P : slice f 69 191 = Panic) by (apply slice_panic_iff; lia). rewrite P. split; [|reflexivity].
        intros (rd' & ml' & [_ Hr] & _ & Hl). destruct E0 as [_ E0]. assert (rd' = rd) by congruence. subst. rewrite C in Hl. lia.
    + destruct (Z_le_gt_dec (69 + ml) (zlen f)) as [G|G].
      * left. split; [exists rd, ml; rewrite C; auto|]. nread.
        match goal with |- context [gbd ?e] => destruct (gbd e) as [t|] eqn:Eg end; [left; cbn [bind]; eauto|]. right.
        apply Z.eqb_neq in C. exists rd, ml. eexists. split; [exact E0|]. split; [exact C|]. split; [exact E5|]. split; [eassumption|]. split; [exact Eg|reflexivity].
      * right. assert (P : slice f 69 (69 + ml) = Panic) by (apply slice_panic_iff; lia). rewrite P. split; [|reflexivity].
        intros (rd' & ml' & [_ Hr] & [_ Hm] & Hl). destruct E0 as [_ E0]. destruct E5 as [_ E5].
        assert (rd' = rd) by congruence. assert (ml' = ml) by congruence. subst. rewrite C in Hl. lia.
  - right. split.
    + intros (rd & ml & _ & Hm & _). apply byte_at_lt in Hm. lia.
    + unfold MDeliver_Decode. revert H.
      destruct (slice f 0 10) as [?|e|] eqn:F0; cbn [bind]; [|intros; discriminate|reflexivity].
      destruct (at_ f 10) as [?|e|] eqn:F1; cbn [bind]; [|intros; discriminate|reflexivity].
      destruct (at_ f 11) as [?|e|] eqn:F2; cbn [bind]; [|intros; discriminate|reflexivity].
      destruct (slice f 12 26) as [?|e|] eqn:F3; cbn [bind]; [|intros; discriminate|reflexivity].
      destruct (slice f 26 47) as [?|e|] eqn:F4; cbn [bind]; [|intros; discriminate|reflexivity].
      destruct (slice f 47 68) as [?|e|] eqn:F5; cbn [bind]; [|intros; discriminate|reflexivity].
      destruct (at_ f 68) as [?|e|] eqn:F6; cbn [bind]; [intros; discriminate|intros; discriminate|reflexivity].
Qed.

(** Hence the property fails for every kind of packet with fields: bodies shorter than its fixed
    part crash the decoder; the fieldless ones (CMPP and SMGP tests and exits) take any body. *)
Theorem C46_refuted : forall f,
  (zlen f < 27 -> forall seq, Connect_Decode seq f = Panic) /\
  (zlen f < 30 -> forall seq, Login_Decode seq f = Panic) /\
  (zlen f < 41 -> forall node, Bind_Decode node f = Panic) /\
  (bytes_ok f -> zlen f < 117 -> forall ver seq, Submit_Decode ver seq f = Panic) /\
  (bytes_ok f -> zlen f < 106 -> forall gbd ver seq, MSubmit_Decode gbd ver seq f = Panic) /\
  (bytes_ok f -> zlen f < 123 -> forall node, SSubmit_Decode node f = Panic) /\
  (bytes_ok f -> zlen f < 65 -> forall ver seq, Delivery_Decode ver seq f = Panic) /\
  (bytes_ok f -> zlen f < 69 -> forall gbd ver seq, MDeliver_Decode gbd ver seq f = Panic) /\
  (bytes_ok f -> zlen f < 57 -> forall node, SDeliver_Decode node f = Panic).
Proof.
  intros f. repeat split; intros.
  - destruct (C46_cmpp_connect seq f) as [[]|[]]; [lia|auto].
  - destruct (C46_smgp_login seq f) as [[]|[]]; [lia|auto].
  - destruct (C46_sgip_bind node f) as [[]|[]]; [lia|auto].
  - destruct (C46_cmpp_submit ver seq f) as [[(n & ml & c & K) _]|[]]; [auto| |auto]. exfalso. cbv zeta in K. destruct K as (K & K2 & _).
    apply byte_at_lt in K, K2. destruct (is_v3 ver); [lia|]. pose proof (Z.mod_pos_bound (n * 21) 256). lia.
  - destruct (C46_smgp_submit gbd ver seq f) as [[(n & ml & c & K) _]|[]]; [auto| |auto]. exfalso. cbv zeta in K. destruct K as (K & K2 & _).
    assert (0 <= n < 256) by (eapply (at_is_byte f); [assumption|apply at_byte; exact K]).
    apply byte_at_lt in K, K2. lia.
  - destruct (C46_sgip_submit node f) as [[(n & ml & c & K) _]|[]]; [auto| |auto]. exfalso. cbv zeta in K. destruct K as (K & K2 & _).
    assert (0 <= n < 256) by (eapply (at_is_byte f); [assumption|apply at_byte; exact K]).
    apply byte_at_lt in K. apply get_be_bound in K2. lia.
  - destruct (C46_cmpp_delivery ver seq f) as [[(n & ml & K) _]|[]]; [auto| |auto]. exfalso. cbv zeta in K. destruct K as (K & K2 & _).
    apply byte_at_lt in K, K2. destruct (is_v3 ver); lia.
  - destruct (C46_smgp_deliver gbd ver seq f) as [[(n & ml & K & K2 & _) _]|[]]; [auto| |auto]. exfalso.
    apply byte_at_lt in K, K2. lia.
  - destruct (C46_sgip_deliver node f) as [[(n & K & _) _]|[]]; [auto| |auto]. exfalso. apply get_be_bound in K. lia.
Qed.
(** Long enough bodies crash too, when the lengths inside them are wrong. *)
Example C46_case_length : Delivery_Decode 32 7 (zeros 64 ++ [200] ++ zeros 199) = Panic.
Proof. vm_compute. reflexivity. Qed.
Example C46_case_marker : Submit_Decode 32 7 (zeros 117 ++ [2; 5; 0]) = Panic.
Proof. vm_compute. reflexivity. Qed.
Example C46_case_safe : submit_safe false (zeros 117 ++ [2; 72; 105]).
Proof.
  exists 0, 2, [72; 105]. split; [split; [lia|reflexivity]|]. split; [split; [lia|reflexivity]|]. split; [reflexivity|]. split; [|exact I].
  split; [discriminate|]. split; [discriminate|]. split; [discriminate|]. discriminate.
Qed.
Print Assumptions C46_cmpp_connect.
Print Assumptions C46_cmpp_connect_resp.
Print Assumptions C46_cmpp_resp.
Print Assumptions C46_cmpp_report.
Print Assumptions C46_smgp_login.
Print Assumptions C46_smgp_login_resp.
Print Assumptions C46_smgp_resp.
Print Assumptions C46_smgp_report.
Print Assumptions C46_sgip_bind.
Print Assumptions C46_sgip_resp.
Print Assumptions C46_sgip_unbind.
Print Assumptions C46_sgip_report.
Print Assumptions C46_cmpp_submit.
Print Assumptions C46_cmpp_delivery.
Print Assumptions C46_sgip_submit.
Print Assumptions C46_sgip_deliver.
Print Assumptions C46_smgp_submit.
Print Assumptions C46_smgp_deliver.
Print Assumptions C46_refuted.
