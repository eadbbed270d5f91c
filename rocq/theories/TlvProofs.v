(** * TlvProofs: proofs about TlvModel. *)
From Verif Require Import Base TlvModel.

(** A well-formed record: 16-bit type, length field equal to the value's length. *)
Definition tlv_wf (o : tlv) : Prop :=
  0 <= t_typ o < 65536 /\ zlen (t_val o) < 65536 /\ t_len o = zlen (t_val o).

Lemma tlv_New_wf typ v : 0 <= typ < 65536 -> tlv_wf (tlv_New typ v).
Proof.
  intros H. unfold tlv_New, tlv_wf. cbn [t_typ t_val t_len]. pose proof (zlen_nonneg v) as Hv.
  set (n := u16 (zlen v)). assert (Hn : 0 <= n < 65536) by (unfold n, u16; lia).
  assert (n <= zlen v) by (unfold n, u16; lia).
  unfold zlen in *. rewrite firstn_length. lia.
Qed.

Lemma tlv_New_fits typ v : zlen v < 65536 -> tlv_New typ v = Tlv typ (zlen v) v.
Proof.
  intros H. unfold tlv_New, u16. pose proof (zlen_nonneg v). rewrite Z.mod_small by lia.
  f_equal. apply firstn_all2. unfold zlen; lia.
Qed.

Lemma read_u16_be x r : 0 <= x < 65536 -> read_u16 (be 2 x ++ r) = Ok (x, r).
Proof. intros H. cbn [be app read_u16]. do 2 f_equal. lia. Qed.

Lemma WriteObject_wf o : tlv_wf o ->
  WriteObject o = (be 2 (t_typ o) ++ be 2 (zlen (t_val o)) ++ t_val o, None).
Proof.
  intros (H1 & H2 & H3). unfold WriteObject. rewrite H3. unfold u16.
  rewrite Z.mod_small by (pose proof (zlen_nonneg (t_val o)); lia). rewrite Z.eqb_refl. reflexivity.
Qed.

Definition wire1 (o : tlv) : bytes := be 2 (t_typ o) ++ be 2 (zlen (t_val o)) ++ t_val o.
Definition wire (l : list tlv) : bytes := flat_map wire1 l.

Lemma TlvWrite_wf l : Forall tlv_wf l -> TlvWrite l = (wire l, None).
Proof.
  induction 1 as [|o l Ho Hl IH]; [reflexivity|]. cbn [TlvWrite].
  rewrite WriteObject_wf by auto. rewrite IH. reflexivity.
Qed.

Lemma ReadObject_wire1 o r : tlv_wf o -> ReadObject (wire1 o ++ r) = Ok (o, r).
Proof.
  intros (H1 & H2 & H3). pose proof (zlen_nonneg (t_val o)) as Hz. unfold ReadObject, wire1.
  rewrite <- !app_assoc. rewrite read_u16_be by auto. cbn [bind]. rewrite read_u16_be by lia. cbn [bind].
  unfold buf_read. destruct (zlen (t_val o) =? 0) eqn:E.
  - cbn [bind]. assert (t_val o = []) as Hv by (destruct (t_val o); auto; unfold zlen in *; cbn in *; lia).
    rewrite Hv in *. destruct o as [a b c]; cbn in *. subst. reflexivity.
  - destruct (t_val o ++ r) eqn:Ea.
    { apply app_eq_nil in Ea as [Ea _]. rewrite Ea in E. cbn in E. discriminate. }
    rewrite <- Ea. cbn [bind].
    replace (Z.to_nat (zlen (t_val o))) with (length (t_val o)) by (unfold zlen; lia).
    rewrite firstn_app, firstn_all, Nat.sub_diag, firstn_O, app_nil_r.
    rewrite skipn_app, skipn_all, Nat.sub_diag. cbn [app skipn].
    unfold u16. rewrite Z.mod_small by lia. rewrite Z.eqb_refl. cbn [negb].
    destruct o as [a b c]; cbn in *. subst. reflexivity.
Qed.

Lemma wire1_len o : (4 <= length (wire1 o))%nat.
Proof. unfold wire1. rewrite !app_length, !length_be. lia. Qed.

Lemma read_loop_app : forall l fuel r, Forall tlv_wf l -> (length (wire l ++ r) < fuel)%nat ->
  exists k, (length r < k)%nat /\
  read_loop fuel (wire l ++ r) = (l ++ fst (read_loop k r), snd (read_loop k r)).
Proof.
  induction l as [|o l IH]; intros fuel r Hw Hf.
  - exists fuel. split; [exact Hf|]. cbn. destruct (read_loop fuel r); reflexivity.
  - inversion Hw; subst. cbn [wire flat_map] in *. rewrite <- app_assoc in *.
    destruct fuel; [lia|]. cbn [read_loop]. rewrite ReadObject_wire1 by auto.
    pose proof (wire1_len o). rewrite app_length in Hf.
    destruct (IH fuel r H2 ltac:(unfold wire; lia)) as (k & Hk & E).
    exists k. split; auto. unfold wire in E. rewrite E. reflexivity.
Qed.

Lemma TlvRead_wire l r : Forall tlv_wf l -> exists k, (length r < k)%nat /\
  TlvRead (wire l ++ r) = (l ++ fst (read_loop k r),
    match snd (read_loop k r) with Some x => if x =? E_EOF then None else Some x | None => None end).
Proof.
  intros Hw. destruct (read_loop_app l (S (length (wire l ++ r))) r Hw ltac:(lia)) as (k & Hk & E).
  exists k. split; auto. unfold TlvRead. rewrite E. reflexivity.
Qed.

Lemma tlv_roundtrip l : Forall tlv_wf l -> TlvRead (fst (TlvWrite l)) = (l, None).
Proof.
  intros H. rewrite TlvWrite_wf by auto. cbn [fst].
  destruct (TlvRead_wire l [] H) as (k & Hk & E). rewrite app_nil_r in E. rewrite E.
  destruct k; [lia|]. cbn. rewrite app_nil_r. reflexivity.
Qed.

(** Cutting inside record [o], [c] bytes after its start. *)
Lemma tlv_cut l o c : Forall tlv_wf l -> tlv_wf o -> (c < length (wire1 o))%nat ->
  exists e, TlvRead (wire l ++ firstn c (wire1 o)) = (l, e)
   /\ (e = None <-> c = 0%nat \/ c = 2%nat \/ c = 4%nat)
   /\ (c = 1%nat \/ c = 3%nat -> e = Some E_UNEXP)
   /\ ((4 < c)%nat -> e = Some E_TLVRead).
Proof.
  intros Hl Ho Hc. destruct (TlvRead_wire l (firstn c (wire1 o)) Hl) as (k & Hk & E).
  destruct Ho as (H1 & H2 & H3). unfold wire1 in *.
  rewrite !app_length, !length_be in Hc.
  assert (HF : exists e, read_loop k (firstn c (be 2 (t_typ o) ++ be 2 (zlen (t_val o)) ++ t_val o)) = ([], Some e)
    /\ (e = E_EOF <-> c = 0%nat \/ c = 2%nat \/ c = 4%nat)
    /\ (c = 1%nat \/ c = 3%nat -> e = E_UNEXP) /\ ((4 < c)%nat -> e = E_TLVRead)).
  { destruct k; [lia|]. cbn [read_loop]. unfold ReadObject.
    destruct c as [|[|[|[|[|c]]]]]; cbn [be app firstn read_u16 bind].
    - exists E_EOF. split; [reflexivity|]. split; [tauto|]. split; [intros [?|?]; discriminate|lia].
    - exists E_UNEXP. split; [reflexivity|]. unfold E_UNEXP, E_EOF. split; [split; [discriminate|lia]|]. split; [auto|lia].
    - exists E_EOF. split; [reflexivity|]. split; [tauto|]. split; [intros [?|?]; discriminate|lia].
    - exists E_UNEXP. split; [reflexivity|]. unfold E_UNEXP, E_EOF. split; [split; [discriminate|lia]|]. split; [auto|lia].
    - (* header complete, no value byte *)
      set (n := zlen (t_val o) / 256 mod 256 * 256 + zlen (t_val o) mod 256).
      assert (n = zlen (t_val o)) as En by (unfold n; pose proof (zlen_nonneg (t_val o)); lia).
      unfold buf_read. rewrite En. replace (zlen (t_val o) =? 0) with false by (unfold zlen in *; lia).
      cbn [bind]. exists E_EOF. split; [reflexivity|]. split; [tauto|]. split; [intros [?|?]; discriminate|lia].
    - set (n := zlen (t_val o) / 256 mod 256 * 256 + zlen (t_val o) mod 256).
      assert (n = zlen (t_val o)) as En by (unfold n; pose proof (zlen_nonneg (t_val o)); lia).
      unfold buf_read. rewrite En. replace (zlen (t_val o) =? 0) with false by (unfold zlen in *; lia).
      destruct (t_val o) as [|v vs] eqn:Ev; [cbn in Hc; lia|]. cbn [firstn bind]. rewrite <- Ev in *.
      assert (L : zlen (firstn (Z.to_nat (zlen (t_val o))) (v :: firstn c vs)) <> zlen (t_val o)).
      { rewrite Ev in Hc |- *. unfold zlen. rewrite firstn_length. cbn [length]. rewrite firstn_length. cbn [length] in Hc. lia. }
      replace (u16 (zlen (firstn (Z.to_nat (zlen (t_val o))) (v :: firstn c vs))) =? zlen (t_val o)) with false.
      2: { symmetry. apply Z.eqb_neq. unfold u16. rewrite Z.mod_small; auto.
           pose proof (zlen_nonneg (firstn (Z.to_nat (zlen (t_val o))) (v :: firstn c vs))).
           assert (zlen (firstn (Z.to_nat (zlen (t_val o))) (v :: firstn c vs)) <= zlen (t_val o)).
           { unfold zlen. rewrite firstn_length. lia. } lia. }
      cbn [negb]. exists E_TLVRead. split; [reflexivity|]. unfold E_TLVRead, E_EOF, E_UNEXP.
      split; [split; [discriminate|lia]|]. split; [intros [?|?]; discriminate|auto]. }
  destruct HF as (e & HF & P1 & P2 & P3). rewrite HF in E. cbn [fst snd] in E. rewrite app_nil_r in E.
  exists (if e =? E_EOF then None else Some e). split; [exact E|].
  destruct (e =? E_EOF) eqn:Ee.
  - assert (e = E_EOF) by lia. split; [tauto|]. split.
    + intros Hc1. exfalso. apply P1 in H. lia.
    + intros Hc1. exfalso. apply P1 in H. lia.
  - assert (e <> E_EOF) by lia. split; [split; [discriminate|intros; exfalso; tauto]|].
    split; intros; f_equal; auto.
Qed.

(** ** Editing *)

Lemma remove_first_none f l : remove_first f l = None -> filter (fun o => negb (f o)) l = l.
Proof.
  induction l as [|o l IH]; cbn; auto. destruct (f o) eqn:E; [discriminate|].
  destruct (remove_first f l) eqn:R; [discriminate|]. intros _. cbn. rewrite IH; auto.
Qed.

Lemma remove_first_some f l l' : remove_first f l = Some l' ->
  filter (fun o => negb (f o)) l' = filter (fun o => negb (f o)) l
  /\ length l = S (length l') /\ (length (filter f l) = S (length (filter f l')))%nat.
Proof.
  revert l'. induction l as [|o l IH]; intros l' H; cbn in H; [discriminate|].
  destruct (f o) eqn:E.
  - injection H as <-. cbn. rewrite E. cbn. auto.
  - destruct (remove_first f l) eqn:R; [|discriminate]. injection H as <-.
    destruct (IH l0 eq_refl) as (A & B & C). cbn. rewrite E. cbn. rewrite A. auto.
Qed.

Lemma remove_loop_spec f : forall fuel l t, (length l < fuel)%nat ->
  remove_loop fuel f l t = (filter (fun o => negb (f o)) l, t + zlen (filter f l)).
Proof.
  induction fuel; intros l t H; [lia|]. cbn [remove_loop].
  destruct (remove_first f l) eqn:R.
  - destruct (remove_first_some _ _ _ R) as (A & B & C). rewrite IHfuel by lia. rewrite A.
    f_equal. unfold zlen. lia.
  - rewrite remove_first_none by auto. f_equal.
    assert (filter f l = []) as ->; [|cbn; lia].
    clear - R. induction l as [|o l IH]; cbn in *; auto. destruct (f o); [discriminate|].
    destruct (remove_first f l); [discriminate|]. auto.
Qed.

Lemma GetAll_loop_spec typ : forall l acc,
  TlvGetAll_loop typ l acc = acc ++ filter (fun o => t_typ o =? typ) l.
Proof.
  induction l as [|o l IH]; intros acc; cbn; [rewrite app_nil_r; auto|].
  rewrite IH. destruct (t_typ o =? typ); cbn; rewrite <- ?app_assoc; auto.
Qed.

Lemma tlv_equal_spec a b : tlv_equal a b = true <-> a = b.
Proof.
  unfold tlv_equal. destruct a as [t n v], b as [t' n' v']; cbn [t_typ t_len t_val].
  destruct (list_eq_dec Z.eq_dec v v'); split; intros H.
  - apply andb_true_iff in H as [H _]. apply andb_true_iff in H as [H1 H2].
    apply Z.eqb_eq in H1, H2. subst. reflexivity.
  - injection H as -> -> ->. rewrite !Z.eqb_refl. reflexivity.
  - rewrite andb_false_r in H. discriminate.
  - congruence.
Qed.
