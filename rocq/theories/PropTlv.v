(** * PropTlv: properties C18-C20 (optional parameters, utils/tlv.go).
    Models: TlvModel.v.  Proofs: TlvProofs.v. *)
From Verif Require Import Base TlvModel TlvProofs.

(** The list built by adding the given (type, value) pairs in order. *)
Definition built (items : list (Z * bytes)) : list tlv :=
  fold_left (fun l tv => TlvAdd (fst tv) (snd tv) l) items [].

(** The wire format of the SMGP specification: type, length, value; big endian. *)
Definition tlv_wire (tv : Z * bytes) : bytes := be 2 (fst tv) ++ be 2 (zlen (snd tv)) ++ snd tv.

Definition item_ok (tv : Z * bytes) : Prop := 0 <= fst tv < 65536 /\ zlen (snd tv) <= 65535.

Lemma built_map : forall items acc, Forall item_ok items ->
  fold_left (fun l tv => TlvAdd (fst tv) (snd tv) l) items acc
  = acc ++ map (fun tv => Tlv (fst tv) (zlen (snd tv)) (snd tv)) items.
Proof.
  induction items as [|x items IH]; intros acc H; cbn [fold_left map]; [rewrite app_nil_r; auto|].
  inversion H; subst. destruct H2. rewrite IH by auto. unfold TlvAdd. rewrite tlv_New_fits by lia.
  rewrite <- app_assoc. reflexivity.
Qed.

Lemma built_wf items : Forall item_ok items -> Forall tlv_wf (built items).
Proof.
  intros H. unfold built. rewrite built_map by auto. cbn [app]. apply Forall_map.
  eapply Forall_impl; [|exact H]. intros [x y] [A B]. unfold tlv_wf. cbn [fst snd t_typ t_val t_len] in *. lia.
Qed.

(** ** C18 TLV lists survive the wire *)

Theorem C18_round_trip : forall items, Forall item_ok items ->
  TlvWrite (built items) = (flat_map tlv_wire items, None)
  /\ TlvRead (flat_map tlv_wire items) = (built items, None)
  /\ map (fun o => (t_typ o, t_val o)) (built items) = items.
Proof.
  intros items H. pose proof (built_wf items H) as W.
  assert (E : TlvWrite (built items) = (flat_map tlv_wire items, None)).
  { rewrite TlvWrite_wf by auto. f_equal. unfold wire, built. rewrite built_map by auto. cbn [app].
    rewrite flat_map_concat_map, map_map, <- flat_map_concat_map. reflexivity. }
  split; [exact E|]. split.
  - pose proof (tlv_roundtrip _ W) as R. rewrite E in R. exact R.
  - unfold built. rewrite built_map by auto. cbn [app]. rewrite map_map. cbn [t_typ t_val].
    rewrite <- map_id. apply map_ext. intros []; reflexivity.
Qed.
(** Reading consumes whole lists: what was written first is read first, whatever follows. *)
Theorem C18_read_prefix : forall items o rest, Forall item_ok items ->
  item_ok o -> exists l e, TlvRead (flat_map tlv_wire items ++ tlv_wire o ++ rest) = (built items ++ l, e)
  /\ exists l', l = Tlv (fst o) (zlen (snd o)) (snd o) :: l'.
Proof.
  intros items o rest H Ho.
  assert (W : Forall tlv_wf (built (items ++ [o]))) by (apply built_wf, Forall_app; auto).
  destruct (TlvRead_wire _ rest W) as (k & Hk & E).
  unfold built in E at 1 2. rewrite built_map in E by (apply Forall_app; auto). cbn [app] in E.
  rewrite map_app in E. unfold wire in E. rewrite flat_map_app in E. cbn [map flat_map] in E.
  rewrite app_nil_r in E. rewrite <- !app_assoc in E.
  rewrite (flat_map_concat_map wire1), map_map, <- flat_map_concat_map in E.
  exists ([Tlv (fst o) (zlen (snd o)) (snd o)] ++ fst (read_loop k rest)).
  eexists. split.
  - unfold built. rewrite built_map by auto. cbn [app]. exact E.
  - eexists. reflexivity.
Qed.
Example C18_case :
  let items := [(2, [1]); (9, []); (1795, [5;0;3;7;2;1])] in
  Forall item_ok items /\ TlvRead (fst (TlvWrite (built items))) = (built items, None)
  /\ fst (TlvWrite (built items)) = [0;2;0;1;1; 0;9;0;0; 7;3;0;6;5;0;3;7;2;1].
Proof.
  split; [|split; vm_compute; reflexivity].
  repeat constructor; cbn; lia.
Qed.
Print Assumptions C18_round_trip.
Print Assumptions C18_read_prefix.

(** ** C19 Truncated TLV data is reported: refuted *)

(** For every list and every record with a value: cutting after the type field, or after the
    header, is not reported. *)
Theorem C19_refuted : forall items typ v, Forall item_ok items -> item_ok (typ, v) -> v <> [] ->
  TlvRead (flat_map tlv_wire items ++ be 2 typ) = (built items, None)
  /\ TlvRead (flat_map tlv_wire items ++ be 2 typ ++ be 2 (zlen v)) = (built items, None).
Proof.
  intros items typ v H [Ho1 Ho2] Hv. cbn [fst snd] in *. pose proof (built_wf items H) as W.
  assert (wf1 : tlv_wf (Tlv typ (zlen v) v)) by (unfold tlv_wf; cbn [t_typ t_val t_len]; lia).
  assert (L : (4 < length (wire1 (Tlv typ (zlen v) v)))%nat).
  { unfold wire1. cbn [t_typ t_val]. rewrite !app_length, !length_be. destruct v; [congruence|cbn; lia]. }
  assert (EW : wire (built items) = flat_map tlv_wire items).
  { pose proof (C18_round_trip items H) as (E & _). rewrite TlvWrite_wf in E by auto. congruence. }
  destruct (tlv_cut (built items) _ 2 W wf1 ltac:(lia)) as (e & E & I & _ & _).
  destruct (tlv_cut (built items) _ 4 W wf1 ltac:(lia)) as (e' & E' & I' & _ & _).
  rewrite EW in E, E'. rewrite (proj2 I) in E by auto. rewrite (proj2 I') in E' by auto. auto.
Qed.
(** Exactly which cuts are reported. [c] bytes of the last record remain. (Missing for the
    full C19: the cuts after 2 and after 4 bytes.) *)
Theorem C19_reported_iff_partial : forall items o c, Forall item_ok items -> item_ok o ->
  (0 < c < length (tlv_wire o))%nat ->
  exists e, TlvRead (flat_map tlv_wire items ++ firstn c (tlv_wire o)) = (built items, e)
  /\ (e <> None <-> c <> 2%nat /\ c <> 4%nat).
Proof.
  intros items [typ v] c H [Ho1 Ho2] Hc. cbn [fst snd] in *. pose proof (built_wf items H) as W.
  assert (wf1 : tlv_wf (Tlv typ (zlen v) v)) by (unfold tlv_wf; cbn [t_typ t_val t_len]; lia).
  assert (EW : wire (built items) = flat_map tlv_wire items).
  { pose proof (C18_round_trip items H) as (E & _). rewrite TlvWrite_wf in E by auto. congruence. }
  destruct (tlv_cut (built items) (Tlv typ (zlen v) v) c W wf1) as (e & E & I & _ & _).
  { apply Hc. }
  rewrite EW in E. exists e. split; [exact E|]. rewrite I. lia.
Qed.
Example C19_case : TlvRead [0;2;0;1;1; 0;9;0;3;65] = ([Tlv 2 1 [1]], Some E_TLVRead)
  /\ TlvRead [0;2;0;1;1; 0;9;0;3] = ([Tlv 2 1 [1]], None).
Proof. split; vm_compute; reflexivity. Qed.
Print Assumptions C19_refuted.
Print Assumptions C19_reported_iff_partial.

(** ** C20 TLV list editing *)

Theorem C20_add : forall l typ v, zlen v <= 65535 ->
  TlvAdd typ v l = l ++ [{| t_typ := typ; t_len := zlen v; t_val := v |}].
Proof. intros. unfold TlvAdd. rewrite tlv_New_fits by lia. reflexivity. Qed.

Theorem C20_get : forall typ l,
  (forall o, TlvGet typ l = Ok o <->
     exists l1 l2, l = l1 ++ o :: l2 /\ t_typ o = typ /\ Forall (fun x => t_typ x <> typ) l1)
  /\ (TlvGet typ l = Err E_NotFound <-> Forall (fun x => t_typ x <> typ) l).
Proof.
  intros typ. induction l as [|x l [IH1 IH2]]; cbn [TlvGet].
  - split; [|split; auto]. intros o. split; [discriminate|].
    intros (l1 & l2 & E & _). destruct l1; discriminate.
  - destruct (t_typ x =? typ) eqn:E.
    + split.
      * intros o. split.
        -- intros H. injection H as <-. exists [], l. repeat split; auto. lia.
        -- intros (l1 & l2 & H & Ht & F). destruct l1; cbn in H; injection H as -> ->; auto.
           inversion F; subst. lia.
      * split; [discriminate|]. intros F; inversion F; subst. lia.
    + split.
      * intros o. rewrite IH1. split.
        -- intros (l1 & l2 & -> & Ht & F). exists (x :: l1), l2. repeat split; auto.
           constructor; auto. lia.
        -- intros (l1 & l2 & H & Ht & F). destruct l1; cbn in H; injection H as -> ->; [lia|].
           inversion F; subst. exists l1, l2; auto.
      * rewrite IH2. split; intros F; [constructor; auto; lia|inversion F; auto].
Qed.

Theorem C20_get_all : forall typ l, TlvGetAll typ l = filter (fun o => t_typ o =? typ) l.
Proof. intros. unfold TlvGetAll. rewrite GetAll_loop_spec. reflexivity. Qed.

Theorem C20_remove : forall typ l,
  TlvRemove typ l = (filter (fun o => negb (t_typ o =? typ)) l, zlen (filter (fun o => t_typ o =? typ) l)).
Proof. intros. unfold TlvRemove. rewrite remove_loop_spec by lia. reflexivity. Qed.

Theorem C20_remove_object : forall x l l' n, TlvRemoveObject x l = (l', n) ->
  (forall o, In o l' <-> In o l /\ o <> x)
  /\ l' = filter (fun o => negb (tlv_equal o x)) l
  /\ n = zlen l - zlen l'
  /\ (forall a b, tlv_equal a b = true <-> a = b).
Proof.
  intros x l l' n E. unfold TlvRemoveObject in E. rewrite remove_loop_spec in E by lia.
  injection E as <- <-. split; [|split; [reflexivity|split; [|exact tlv_equal_spec]]].
  - intros o. rewrite filter_In. rewrite negb_true_iff. rewrite <- tlv_equal_spec.
    destruct (tlv_equal o x); intuition congruence.
  - clear. induction l as [|a l IH]; cbn [filter]; [reflexivity|].
    destruct (tlv_equal a x); cbn [negb]; rewrite ?zlen_cons; lia.
Qed.

Example C20_case : let l := built [(1,[7]); (2,[8]); (1,[9])] in
  TlvGet 1 l = Ok (Tlv 1 1 [7]) /\ TlvGet 5 l = Err E_NotFound
  /\ TlvGetAll 1 l = [Tlv 1 1 [7]; Tlv 1 1 [9]]
  /\ TlvRemove 1 l = ([Tlv 2 1 [8]], 2)
  /\ TlvRemoveObject (Tlv 1 1 [9]) l = ([Tlv 1 1 [7]; Tlv 2 1 [8]], 1).
Proof. repeat split; vm_compute; reflexivity. Qed.
Print Assumptions C20_add.
Print Assumptions C20_get.
Print Assumptions C20_get_all.
Print Assumptions C20_remove.
Print Assumptions C20_remove_object.
