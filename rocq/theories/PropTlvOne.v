(** C18 and C19 for a single record: FromBytes and ToBytes (utils/tlv.go:79-91). *)
From Verif Require Import Base TlvModel TlvProofs PropTlv.

(** ** Model *)
(** utils/tlv.go:80-83 FromBytes.  (On ErrTLVRead the record read so far is returned beside the error.) *)
Definition FromBytes (data : bytes) : res tlv := '(o, _) <- ReadObject data ;; Ok o.
(** utils/tlv.go:86-91 ToBytes *)
Definition ToBytes (o : tlv) : bytes * option Z := WriteObject o.

(** ** Theorems *)
(** C18 for one record: type, length of the value, value, each in its place; reading it back gives the
    record, whatever follows.  A value above 65535 octets is cut to its length modulo 65536, without an error. *)
Theorem C18_one : forall typ v rest, 0 <= typ < 65536 ->
  ToBytes (tlv_New typ v) = (be 2 typ ++ be 2 (zlen v mod 65536) ++ firstn (Z.to_nat (zlen v mod 65536)) v, None) /\
  FromBytes (fst (ToBytes (tlv_New typ v)) ++ rest) = Ok (Tlv typ (zlen v mod 65536) (firstn (Z.to_nat (zlen v mod 65536)) v)) /\
  (zlen v <= 65535 -> firstn (Z.to_nat (zlen v mod 65536)) v = v /\ zlen v mod 65536 = zlen v).
Proof.
  intros typ v rest T. pose proof (tlv_New_wf typ v T) as W. split; [|split].
  - unfold ToBytes. rewrite (WriteObject_wf _ W). destruct W as (_ & _ & <-). reflexivity.
  - unfold ToBytes, FromBytes. rewrite (WriteObject_wf _ W). cbn [fst]. change (be 2 (t_typ (tlv_New typ v)) ++ be 2 (zlen (t_val (tlv_New typ v))) ++ t_val (tlv_New typ v)) with (wire1 (tlv_New typ v)).
    rewrite (ReadObject_wire1 _ rest W). reflexivity.
  - intros L. assert (0 <= zlen v) by (unfold zlen; lia). rewrite Z.mod_small by lia. split; [|reflexivity]. apply firstn_all2. unfold zlen. lia.
Qed.
Print Assumptions C18_one.
(** C19 for one record, in full: octets that end before the record does are reported, at any place. *)
Theorem C19_one : forall typ v c, 0 <= typ < 65536 -> zlen v <= 65535 -> (c < length (tlv_wire (typ, v)))%nat ->
  exists e, FromBytes (firstn c (tlv_wire (typ, v))) = Err e.
Proof.
  intros typ v c T L C. unfold tlv_wire in *. cbn [fst snd] in *. rewrite !app_length in C. change (length (be 2 typ)) with 2%nat in C. change (length (be 2 (zlen v))) with 2%nat in C.
  unfold FromBytes, ReadObject. destruct c as [|[|[|[|c]]]]; try (eexists; reflexivity).
  change (firstn (S (S (S (S c)))) (be 2 typ ++ be 2 (zlen v) ++ v)) with (be 2 typ ++ be 2 (zlen v) ++ firstn c v).
  assert (0 <= zlen v) by (unfold zlen; lia). rewrite read_u16_be by exact T. cbn [bind]. rewrite read_u16_be by lia. cbn [bind]. unfold buf_read.
  destruct (zlen v =? 0) eqn:Z; [apply Z.eqb_eq in Z; unfold zlen in Z; lia|]. destruct (firstn c v) as [|x f] eqn:F; [eexists; reflexivity|]. cbn [bind].
  rewrite <- F. rewrite firstn_firstn. replace (Nat.min (Z.to_nat (zlen v)) c) with c by (unfold zlen; lia).
  assert (zlen (firstn c v) = Z.of_nat c) by (unfold zlen; rewrite firstn_length; lia). rewrite H0.
  replace (u16 (Z.of_nat c) =? zlen v) with false; [eexists; reflexivity|]. symmetry. apply Z.eqb_neq. unfold u16. rewrite Z.mod_small; unfold zlen in *; lia.
Qed.
Print Assumptions C19_one.
(** A record cut after its header: an error here, where the list reader takes it as the end (C19_refuted). *)
Example C19_one_case : FromBytes (firstn 4 (tlv_wire (7, [1;2;3]))) = Err E_EOF /\ TlvRead (firstn 4 (tlv_wire (7, [1;2;3]))) = ([], None) /\
  FromBytes (firstn 6 (tlv_wire (7, [1;2;3]))) = Err E_TLVRead /\ FromBytes (tlv_wire (7, [1;2;3]) ++ [9;9]) = Ok (Tlv 7 3 [1;2;3]).
Proof. vm_compute. auto. Qed.
