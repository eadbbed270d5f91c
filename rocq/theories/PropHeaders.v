(** * PropHeaders: C28 (packet headers, three protocols). *)
From Verif Require Import Base UtilsModel SpecWire WireProofs CmppModel CmppProofs PropCmpp SgipModel SpecSgip SgipProofs
  SmgpModel SmgpProofs.

(** What a header must become on the wire: the fields big endian, zeros up to the announced
    length, and the announced length is the given one but at least the header's own size. *)
Definition wire12 (f : bytes) (len cmd seq : Z) : Prop :=
  f = be 4 (Z.max 12 len) ++ be 4 cmd ++ be 4 seq ++ repeat 0 (Z.to_nat (Z.max 12 len) - 12).
Definition wire20 (f : bytes) (len cmd : Z) (q : seq3) : Prop :=
  let '(a, b, c) := q in
  f = be 4 (Z.max 20 len) ++ be 4 cmd ++ be 4 a ++ be 4 b ++ be 4 c ++ repeat 0 (Z.to_nat (Z.max 20 len) - 20).

Lemma dec12 f len cmd seq : 0 <= len < 2 ^ 32 -> 0 <= cmd < 2 ^ 32 -> 0 <= seq < 2 ^ 32 -> wire12 f len cmd seq ->
  head_Decode f = Ok (CHead (Z.max 12 len) cmd seq) /\ zlen f = Z.max 12 len.
Proof.
  intros H1 H2 H3 H. unfold wire12 in H. split.
  - unfold head_Decode. assert (Hb : f = [] ++ f) by reflexivity. rewrite H in Hb at 2.
    assert (0 <= Z.max 12 len < 2 ^ 32) by lia. do 3 rstep Hb. reflexivity.
  - rewrite H. autorewrite with zlen. lia.
Qed.

Theorem C28_cmpp : forall len cmd seq, 0 <= len < 2 ^ 32 -> 0 <= cmd < 2 ^ 32 -> 0 <= seq < 2 ^ 32 ->
  exists f, head_Encode (CHead len cmd seq) = Ok f /\ wire12 f len cmd seq /\ zlen f = Z.max 12 len /\
    head_Decode f = Ok (CHead (Z.max 12 len) cmd seq) /\ UnpackHead f = Ok (Z.max 12 len, cmd, seq).
Proof.
  intros len cmd seq H1 H2 H3.
  assert (E : head_Encode (CHead len cmd seq) = head_Encode (CHead (Z.max 12 len) cmd seq)).
  { unfold head_Encode, head_len. cbn [h_len h_cmd h_seq]. destruct (len <? 12) eqn:El.
    - replace (Z.max 12 len) with 12 by lia. reflexivity.
    - replace (Z.max 12 len) with len by lia. rewrite El. reflexivity. }
  rewrite E, head_Encode_ok by (cbn [h_len]; lia). cbn [h_len h_cmd h_seq]. eexists; split; [reflexivity|].
  assert (W : wire12 (render (head (Z.max 12 len) cmd seq) ++ repeat 0 (Z.to_nat (Z.max 12 len) - 12)) len cmd seq).
  { unfold wire12, render, head. cbn [map concat render1]. wnorm. reflexivity. }
  split; [exact W|]. destruct (dec12 _ len cmd seq H1 H2 H3 W) as [D1 D2]. split; [exact D2|]. split; [exact D1|].
  apply UnpackHead_head; lia.
Qed.
Theorem C28_smgp : forall len cmd seq, 0 <= len < 2 ^ 32 -> 0 <= cmd < 2 ^ 32 -> 0 <= seq < 2 ^ 32 ->
  exists f, smhead_Encode (CHead len cmd seq) = Ok f /\ wire12 f len cmd seq /\ zlen f = Z.max 12 len /\
    smhead_Decode f = Ok (CHead (Z.max 12 len) cmd seq) /\ UnpackHead f = Ok (Z.max 12 len, cmd, seq).
Proof. exact C28_cmpp. Qed.
Theorem C28_sgip : forall len cmd a b c, 0 <= len < 2 ^ 32 -> 0 <= cmd < 2 ^ 32 -> seq_wf (a, b, c) ->
  exists f, shead_Encode (SHead len cmd (a, b, c)) = Ok f /\ wire20 f len cmd (a, b, c) /\ zlen f = Z.max 20 len /\
    shead_Decode f = Ok (SHead (Z.max 20 len) cmd (a, b, c)) /\ UnpackHead f = Ok (Z.max 20 len, cmd, a).
Proof.
  intros len cmd a b c H1 H2 (Q1 & Q2 & Q3).
  assert (E : shead_Encode (SHead len cmd (a, b, c)) = shead_Encode (SHead (Z.max 20 len) cmd (a, b, c))).
  { unfold shead_Encode, shead_len. cbn [sh_len sh_cmd sh_seq]. destruct (len <? 20) eqn:El.
    - replace (Z.max 20 len) with 20 by lia. reflexivity.
    - replace (Z.max 20 len) with len by lia. rewrite El. reflexivity. }
  rewrite E, shead_Encode_ok by (cbn [sh_len]; lia). cbn [sh_len sh_cmd sh_seq]. eexists; split; [reflexivity|].
  set (f := _ ++ _).
  assert (W : wire20 f len cmd (a, b, c)).
  { unfold wire20, f, render, head20. cbn [map concat render1]. wnorm. reflexivity. }
  split; [exact W|]. unfold wire20 in W. split; [rewrite W; autorewrite with zlen; lia|].
  assert (HM : 0 <= Z.max 20 len < 2 ^ 32) by lia. split.
  - unfold shead_Decode. clearbody f. assert (Hb : f = [] ++ f) by reflexivity. rewrite W in Hb at 2.
    do 5 rstep Hb. reflexivity.
  - unfold f. change (head20 (Z.max 20 len) cmd (a, b, c)) with (head (Z.max 20 len) cmd a ++ [U 4 b; U 4 c]).
    rewrite render_app, <- app_assoc. apply UnpackHead_head; lia.
Qed.
(** Any 12 (SGIP: 20) bytes or more can be decoded. *)
Theorem C28_decode_total : forall f, (12 <= zlen f -> exists h, head_Decode f = Ok h) /\
  (12 <= zlen f -> exists h, smhead_Decode f = Ok h) /\ (20 <= zlen f -> exists h, shead_Decode f = Ok h).
Proof.
  intros f.
  assert (G : forall lo, 0 <= lo -> lo + 4 <= zlen f -> exists v, get_be 4 f lo (lo + 4) = Ok v).
  { intros lo H1 H2. unfold get_be. destruct (slice f lo (lo + 4)) as [x| |] eqn:E.
    - cbn [bind]. rewrite (slice_len _ _ _ _ E). replace (_ <=? _) with true by lia. eauto.
    - exfalso. eapply slice_noerr; eauto.
    - exfalso. apply slice_panic_iff in E. lia. }
  split; [|split]; intros H.
  - unfold head_Decode. destruct (G 0) as [v1 E1]; [lia|lia|]. destruct (G 4) as [v2 E2]; [lia|lia|]. destruct (G 8) as [v3 E3]; [lia|lia|].
    cbn [Z.add Pos.add] in E1, E2, E3. rewrite E1. cbn [bind]. rewrite E2. cbn [bind]. rewrite E3. cbn [bind]. eauto.
  - unfold smhead_Decode. destruct (G 0) as [v1 E1]; [lia|lia|]. destruct (G 4) as [v2 E2]; [lia|lia|]. destruct (G 8) as [v3 E3]; [lia|lia|].
    cbn [Z.add Pos.add] in E1, E2, E3. rewrite E1. cbn [bind]. rewrite E2. cbn [bind]. rewrite E3. cbn [bind]. eauto.
  - unfold shead_Decode. destruct (G 0) as [v1 E1]; [lia|lia|]. destruct (G 4) as [v2 E2]; [lia|lia|]. destruct (G 8) as [v3 E3]; [lia|lia|].
    destruct (G 12) as [v4 E4]; [lia|lia|]. destruct (G 16) as [v5 E5]; [lia|lia|].
    cbn [Z.add Pos.add] in E1, E2, E3. change (12 + 4) with 16 in E4. change (16 + 4) with 20 in E5.
    rewrite E1. cbn [bind]. rewrite E2. cbn [bind]. rewrite E3. cbn [bind]. rewrite E4. cbn [bind]. rewrite E5. cbn [bind]. eauto.
Qed.
Example C28_case : head_Encode (CHead 3 8 258) = Ok [0;0;0;12; 0;0;0;8; 0;0;1;2]
  /\ shead_Encode (SHead 21 1 (1, 2, 4294967295)) = Ok [0;0;0;21; 0;0;0;1; 0;0;0;1; 0;0;0;2; 255;255;255;255; 0].
Proof. split; vm_compute; reflexivity. Qed.
Print Assumptions C28_cmpp.
Print Assumptions C28_smgp.
Print Assumptions C28_sgip.
Print Assumptions C28_decode_total.
