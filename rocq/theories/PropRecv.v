(** * C61: reading the gateway's stream.  C65: handing out a session only after a login. *)
From Verif Require Import Base UtilsModel OptionsModel CmppModel SgipModel SmgpModel FrameModel ClientModel RecvModel.

(** ** C61 *)
(** What a gateway sends for a packet: length, command, sequence (4 bytes each), body.  The client
    reads it in two pieces, the header and, if there is one, the body. *)
Definition header (p : packet) : bytes := be 4 (12 + zlen (pk_body p)) ++ be 4 (pk_cmd p) ++ be 4 (pk_seq p).
Definition wire (p : packet) : bytes := header p ++ pk_body p.
Definition pieces (p : packet) : list bytes := match pk_body p with [] => [header p] | b => [header p; b] end.
Definition sane (p : packet) : Prop := 0 <= pk_cmd p < 2 ^ 32 /\ 0 <= pk_seq p < 2 ^ 32 /\ zlen (pk_body p) <= 5108.
(** Chunks are made of whole pieces: no piece is cut by a chunk boundary. *)
Inductive uncut : list bytes -> list bytes -> Prop :=
| U_nil : uncut [] []
| U_end x P C : uncut P C -> uncut (x :: P) (x :: C)
| U_more x P c C : c <> [] -> uncut P (c :: C) -> uncut (x :: P) ((x ++ c) :: C).

Lemma header_len p : zlen (header p) = 12.
Proof. unfold header, zlen. rewrite !app_length, !length_be. reflexivity. Qed.
Lemma unpack_header p : sane p -> UnpackHead (header p) = Ok (12 + zlen (pk_body p), pk_cmd p, pk_seq p).
Proof.
  intros (A & B & C). pose proof (zlen_nonneg (pk_body p)) as D. change (2 ^ 32) with 4294967296 in *. unfold UnpackHead. rewrite header_len. cbn [Z.leb Z.compare Pos.compare Pos.compare_cont].
  unfold header. assert (L : forall v, zlen (be 4 v) = 4) by (intros; unfold zlen; rewrite length_be; reflexivity).
  rewrite get_be_here by (rewrite ?L; reflexivity). cbn [bind].
  rewrite (get_be_app_r 4 (be 4 (12 + _))) by (rewrite L; lia). rewrite L. rewrite get_be_here by (rewrite ?L; reflexivity). cbn [bind].
  rewrite (get_be_app_r 4 (be 4 (12 + _))) by (rewrite L; lia). rewrite L. rewrite (get_be_app_r 4 (be 4 (pk_cmd p))) by (rewrite L; lia). rewrite L.
  rewrite <- (app_nil_r (be 4 (pk_seq p))), get_be_here by (rewrite ?L; reflexivity). cbn [bind].
  rewrite !unbe_be_small by (change (256 ^ Z.of_nat 4) with 4294967296; lia). reflexivity.
Qed.
Definition solid (C : list bytes) : Prop := Forall (fun c => c <> []) C.
(** Reading one piece of a stream. *)
Lemma read_piece x C tail : x <> [] -> solid C -> concat C = x ++ tail ->
  (exists c C', C = c :: C' /\ zlen c < zlen x /\ Read (zlen x) (map Data C) = (Bytes c, map Data C') /\ forall P, ~ uncut (x :: P) C)
  \/ (exists C', Read (zlen x) (map Data C) = (Bytes x, map Data C') /\ solid C' /\ concat C' = tail /\ forall P, uncut (x :: P) C <-> uncut P C').
Proof.
  intros NX S E. destruct C as [|c C]; [destruct x; [contradiction|discriminate E]|]. cbn [concat] in E. cbn [map Read]. inversion S as [|? ? NC SC]; subst.
  assert (LX : 0 < zlen x) by (destruct x; [contradiction|rewrite zlen_cons; pose proof (zlen_nonneg x); lia]).
  destruct (Z.lt_total (zlen c) (zlen x)) as [L|[L|L]].
  - left. exists c, C. split; [reflexivity|]. split; [exact L|]. replace (zlen c <=? zlen x) with true by lia. split; [reflexivity|].
    intros P U. inversion U; subst; [lia|]. rewrite zlen_app in L. pose proof (zlen_nonneg c0). lia.
  - right. assert (c = x) as ->. { apply (f_equal (firstn (length x))) in E. rewrite !firstn_app in E. unfold zlen in L. replace (length x - length c)%nat with 0%nat in E by lia. replace (length x - length x)%nat with 0%nat in E by lia.
      rewrite firstn_all in E. cbn [firstn] in E. rewrite !app_nil_r in E. rewrite <- E. symmetry. apply firstn_all2. lia. }
    apply app_inv_head in E. exists C. replace (zlen x <=? zlen x) with true by lia. split; [reflexivity|]. split; [exact SC|]. split; [exact E|].
    intros P. split; intros U; [|constructor; exact U]. inversion U as [|? ? ? U'|? ? c0 ? N0 U' E0 E1]; subst; [exact U'|]. exfalso.
    assert (Z0 : zlen (x ++ c0) = zlen x) by (rewrite E1; reflexivity). rewrite zlen_app in Z0. destruct c0; [contradiction|]. rewrite zlen_cons in Z0. pose proof (zlen_nonneg c0). lia.
  - right. assert (X : exists c', c = x ++ c' /\ c' <> []).
    { exists (skipn (length x) c). unfold zlen in L. split.
      - apply (f_equal (firstn (length x))) in E. rewrite !firstn_app in E. replace (length x - length c)%nat with 0%nat in E by lia. replace (length x - length x)%nat with 0%nat in E by lia.
        rewrite (firstn_all x) in E. cbn [firstn] in E. rewrite !app_nil_r in E. rewrite <- (firstn_skipn (length x) c) at 1. rewrite E. reflexivity.
      - intros Z0. apply (f_equal (@length Z)) in Z0. rewrite skipn_length in Z0. cbn in Z0. lia. }
    destruct X as (c' & -> & NC'). replace (zlen (x ++ c') <=? zlen x) with false by lia. replace (Z.to_nat (zlen x)) with (length x) by (unfold zlen; lia).
    rewrite firstn_app, Nat.sub_diag, firstn_all, firstn_O, app_nil_r, skipn_app, skipn_all, Nat.sub_diag. cbn [app skipn].
    exists (c' :: C). split; [reflexivity|]. split; [constructor; assumption|]. split; [cbn [concat]; rewrite <- app_assoc in E; apply app_inv_head in E; exact E|].
    intros P. split; intros U.
    + inversion U as [|? ? ? U' E0 E1|? ? c0 ? N0 U' E0 E1]; subst.
      * exfalso. assert (Z0 : zlen (x ++ c') = zlen x) by congruence. lia.
      * apply app_inv_head in E1. subst. exact U'.
    + constructor; assumption.
Qed.
(** One packet of a stream. *)
Lemma one_packet p C tail : sane p -> solid C -> concat C = wire p ++ tail ->
  (receive_one (map Data C) = OneClose /\ forall P, ~ uncut (pieces p ++ P) C)
  \/ (exists C', receive_one (map Data C) = OnePass p (map Data C') /\ solid C' /\ concat C' = tail /\ forall P, uncut (pieces p ++ P) C <-> uncut P C').
Proof.
  intros SN S E. pose proof (header_len p) as HL. pose proof SN as (S1 & S2 & S3). pose proof (zlen_nonneg (pk_body p)) as S4. unfold wire in E. rewrite <- app_assoc in E.
  destruct (read_piece (header p) C (pk_body p ++ tail)) as [(c & C1 & -> & L & R & U)|(C1 & R & SC1 & EC1 & U)]; [intros H; rewrite H in HL; discriminate HL|exact S|exact E| |].
  - left. unfold receive_one. rewrite HL in R, L. rewrite R. replace (zlen c =? 12) with false by lia. cbn [negb]. split; [reflexivity|]. intros P. unfold pieces. destruct (pk_body p); cbn [app]; apply U.
  - unfold receive_one. rewrite HL in R. rewrite R, HL. cbn [Z.eqb Pos.eqb negb]. rewrite unpack_header by exact SN. unfold PacketMax, HeadLen. replace ((5120 <? 12 + zlen (pk_body p)) || (12 + zlen (pk_body p) <? 12)) with false by lia.
    replace (12 + zlen (pk_body p) - 12) with (zlen (pk_body p)) by lia. unfold pieces. destruct p as [cmd seq body]. cbn [pk_body pk_cmd pk_seq] in *. destruct body as [|b0 body].
    + right. cbn [zlen length Z.of_nat Z.ltb Z.compare]. exists C1. cbn [app] in *. auto.
    + replace (0 <? zlen (b0 :: body)) with true by (rewrite zlen_cons; pose proof (zlen_nonneg body); lia).
      destruct (read_piece (b0 :: body) C1 tail) as [(c & C2 & -> & L2 & R2 & U2)|(C2 & R2 & SC2 & EC2 & U2)]; [discriminate|exact SC1|exact EC1| |].
      * left. rewrite R2. replace (zlen c =? zlen (b0 :: body)) with false by lia. cbn [negb]. split; [reflexivity|]. intros P X. cbn [app] in X. apply U in X. exact (U2 P X).
      * right. rewrite R2, Z.eqb_refl. cbn [negb]. exists C2. split; [reflexivity|]. split; [exact SC2|]. split; [exact EC2|]. intros P. cbn [app]. rewrite U. apply U2.
Qed.
Lemma receive_stream St (h : St -> packet -> St) ps : forall C s done k, Forall sane ps -> solid C -> concat C = flat_map wire ps ->
  (uncut (flat_map pieces ps) C /\ receive (fun s p => Some (h s p, true)) (length ps + k) s (map Data C) done = (done ++ ps, fold_left h ps s, RWaiting, []))
  \/ (~ uncut (flat_map pieces ps) C /\ exists ps1 p ps2 rest, ps = ps1 ++ p :: ps2 /\ receive (fun s p => Some (h s p, true)) (length ps + k) s (map Data C) done = (done ++ ps1, fold_left h ps1 s, RClosed, rest)).
Proof.
  induction ps as [|p ps IH]; intros C s done k SN S E; cbn [flat_map] in *.
  - left. destruct C as [|c C]; [|inversion S; destruct c; [contradiction|discriminate E]]. split; [constructor|]. cbn [length Nat.add fold_left map]. rewrite app_nil_r. destruct k; reflexivity.
  - inversion SN as [|? ? SN1 SN2]; subst. cbn [length Nat.add receive]. destruct (one_packet p C (flat_map wire ps) SN1 S E) as [[R U]|(C' & R & S' & E' & U)].
    + right. split; [apply U|]. exists [], p, ps, (map Data C). rewrite R. cbn [app fold_left]. rewrite app_nil_r. auto.
    + rewrite R. destruct (IH C' (h s p) (done ++ [p]) k SN2 S' E') as [[U' R']|[U' (ps1 & q & ps2 & rest & -> & R')]].
      * left. split; [apply U; exact U'|]. rewrite R', <- app_assoc. reflexivity.
      * right. split; [intros X; apply U' ; apply U; exact X|]. exists (p :: ps1), q, ps2, rest. split; [reflexivity|]. rewrite R', <- app_assoc. reflexivity.
Qed.
(** The full claim holds for exactly the segmentations that cut no header and no body.  For those
    every packet is handed over, once and in order, and the session goes on waiting. *)
Theorem C61_uncut_partial : forall St (h : St -> packet -> St) ps C s k, Forall sane ps -> solid C -> concat C = flat_map wire ps -> uncut (flat_map pieces ps) C ->
  receive (fun s p => Some (h s p, true)) (length ps + k) s (map Data C) [] = (ps, fold_left h ps s, RWaiting, []).
Proof. intros St h ps C s k SN S E U. destruct (receive_stream St h ps C s [] k SN S E) as [[_ R]|[N _]]; [exact R|contradiction]. Qed.
(** Every other segmentation of the same stream closes the session, and not all packets are handed over. *)
Theorem C61_refuted : forall St (h : St -> packet -> St) ps C s k, Forall sane ps -> solid C -> concat C = flat_map wire ps -> ~ uncut (flat_map pieces ps) C ->
  exists ps1 p ps2 rest, ps = ps1 ++ p :: ps2 /\ receive (fun s p => Some (h s p, true)) (length ps + k) s (map Data C) [] = (ps1, fold_left h ps1 s, RClosed, rest).
Proof. intros St h ps C s k SN S E U. destruct (receive_stream St h ps C s [] k SN S E) as [[X _]|[_ X]]; [contradiction|exact X]. Qed.
(** A length field outside 12..5120 closes the session at once. *)
Theorem C61_bad_length : forall l cmd seq r St (hd : St -> packet -> option (St * bool)) s k, 0 <= l < 2 ^ 32 -> 0 <= cmd < 2 ^ 32 -> 0 <= seq < 2 ^ 32 ->
  l < 12 \/ 5120 < l -> exists rest, receive hd (S k) s (Data (be 4 l ++ be 4 cmd ++ be 4 seq) :: r) [] = ([], s, RClosed, rest).
Proof.
  intros l cmd seq r St hd s k L A B BAD. change (2 ^ 32) with 4294967296 in *. cbn [receive]. unfold receive_one. cbn [Read].
  assert (Lb : forall v, zlen (be 4 v) = 4) by (intros; unfold zlen; rewrite length_be; reflexivity).
  assert (LH : zlen (be 4 l ++ be 4 cmd ++ be 4 seq) = 12) by (rewrite !zlen_app, !Lb; reflexivity). rewrite LH. cbn [Z.leb Z.compare Pos.compare Pos.compare_cont Z.eqb Pos.eqb negb].
  unfold UnpackHead. rewrite LH. cbn [Z.leb Z.compare Pos.compare Pos.compare_cont].
  rewrite get_be_here by (rewrite ?Lb; reflexivity). cbn [bind]. rewrite unbe_be_small by (change (256 ^ Z.of_nat 4) with 4294967296; lia).
  rewrite (get_be_app_r 4 (be 4 l)) by (rewrite Lb; lia). rewrite Lb. rewrite get_be_here by (rewrite ?Lb; reflexivity). cbn [bind].
  rewrite (get_be_app_r 4 (be 4 l)) by (rewrite Lb; lia). rewrite Lb. rewrite (get_be_app_r 4 (be 4 cmd)) by (rewrite Lb; lia). rewrite Lb.
  rewrite <- (app_nil_r (be 4 seq)), get_be_here by (rewrite ?Lb; reflexivity). cbn [bind]. unfold PacketMax, HeadLen.
  replace ((5120 <? l) || (l <? 12)) with true by lia. eexists. reflexivity.
Qed.
(** Two packets, one with a body: whole pieces in two chunks; the same bytes cut inside the body. *)
Definition two : list packet := [Packet 8 1 []; Packet 5 2 [1;2;3]].
Definition note (s : Z) (p : packet) : Z := s * 10 + pk_seq p.
Example C61_case : receive (fun s p => Some (note s p, true)) 5 0 [Data (header (Packet 8 1 []) ++ header (Packet 5 2 [1;2;3])); Data [1;2;3]] [] = (two, 12, RWaiting, [])
  /\ uncut (flat_map pieces two) [header (Packet 8 1 []) ++ header (Packet 5 2 [1;2;3]); [1;2;3]].
Proof. split; [vm_compute; reflexivity|]. cbn [two flat_map pieces pk_body app]. apply U_more; [discriminate|]. apply U_end. apply U_end. constructor. Qed.
Example C61_cut :
  let '(done, _, st, _) := receive (fun s p => Some (note s p, true)) 5 0 [Data (header (Packet 8 1 []) ++ header (Packet 5 2 [1;2;3])); Data [1;2]; Data [3]] [] in
  done = [Packet 8 1 []] /\ st = RClosed.
Proof. vm_compute. auto. Qed.
Print Assumptions C61_uncut_partial.
Print Assumptions C61_refuted.
Print Assumptions C61_bad_length.

(** ** C65 *)
(** A login answer as the protocols define it: the right length, also in the length field, the
    command of the login answer (0x80000001 in all three), and the status field. *)
Definition field (a n : nat) (b : bytes) : Z := unbe (firstn n (skipn a b)).
Definition answer_len (p : proto) (v3 : bool) : Z := match p with P_SGIP => 21 | P_CMPP => if v3 then 33 else 30 | P_SMGP => 33 end.
Definition is_answer (p : proto) (v3 : bool) (b : bytes) : Prop := zlen b = answer_len p v3 /\ field 0 4 b = zlen b /\ field 4 4 b = 2147483649.
Definition answer_status (p : proto) (v3 : bool) (b : bytes) : Z :=
  match p with P_SGIP => field 20 1 b | P_CMPP => if v3 then field 12 4 b else field 12 1 b | P_SMGP => field 12 4 b end.
(** CMPP 3: the client looks at the last byte of the status field only. *)
Definition seen_status (p : proto) (v3 : bool) (b : bytes) : Z :=
  match p with P_CMPP => if v3 then field 15 1 b else field 12 1 b | _ => answer_status p v3 b end.
Lemma get_be_in n f (lo : nat) hi : hi = Z.of_nat lo + Z.of_nat n -> hi <= zlen f -> get_be n f (Z.of_nat lo) hi = Ok (field lo n f).
Proof.
  intros -> L. unfold get_be, slice. replace ((0 <=? Z.of_nat lo) && (Z.of_nat lo <=? Z.of_nat lo + Z.of_nat n) && (Z.of_nat lo + Z.of_nat n <=? zlen f)) with true by lia. cbn [bind].
  replace (Z.to_nat (Z.of_nat lo + Z.of_nat n - Z.of_nat lo)) with n by lia. rewrite Nat2Z.id, firstn_firstn, Nat.min_id.
  replace (Z.of_nat n <=? zlen (firstn n (skipn lo f))) with true by (unfold zlen in *; rewrite firstn_length, skipn_length; lia). reflexivity.
Qed.
Lemma at_in (f : bytes) (i : nat) : Z.of_nat i < zlen f -> at_ f (Z.of_nat i) = Ok (field i 1 f).
Proof.
  intros L. unfold at_. replace ((0 <=? Z.of_nat i) && (Z.of_nat i <? zlen f)) with true by lia. rewrite Nat2Z.id. unfold field.
  assert (X : skipn i f = nth i f 0 :: skipn (S i) f). { unfold zlen in L. assert (L' : (i < length f)%nat) by lia. clear L. revert f L'. induction i as [|i IH]; intros [|x f] L'; cbn [length] in L'; try lia; [reflexivity|]. cbn [skipn nth]. apply IH. lia. }
  rewrite X. cbn [firstn]. rewrite (nth_error_nth' f 0) by (unfold zlen in L; lia). reflexivity.
Qed.
Lemma field_skip a b n f : field a n (skipn b f) = field (b + a) n f.
Proof. unfold field. f_equal. f_equal. revert f. induction b as [|b IH]; intros f; [reflexivity|]. destruct f as [|x f]; [rewrite !skipn_nil; reflexivity|]. cbn [skipn Nat.add]. apply IH. Qed.
Lemma answer_spec p ver data : zlen data = resp_len p ver ->
  login_answer p ver data = Ok ((field 0 4 data =? zlen data) && (field 4 4 data =? 2147483649) && (seen_status p (is_v3 ver) data =? 0)).
Proof.
  intros L. assert (L21 : 21 <= zlen data <= 33) by (rewrite L; unfold resp_len; destruct p; [destruct (is_v3 ver)| |]; lia).
  unfold login_answer. rewrite (get_be_in 4 data 0) by lia. cbn [bind]. destruct (field 0 4 data =? zlen data); [|reflexivity]. cbn [negb andb].
  change (get_be 4 data 4 8) with (get_be 4 data (Z.of_nat 4) 8). rewrite (get_be_in 4 data 4) by lia. cbn [bind]. change (get_be 4 data 8 12) with (get_be 4 data (Z.of_nat 8) 12). rewrite (get_be_in 4 data 8) by lia. cbn [bind].
  assert (SL : slice data 12 (zlen data) = Ok (skipn 12 data)).
  { unfold slice. replace ((0 <=? 12) && (12 <=? zlen data) && (zlen data <=? zlen data)) with true by lia. f_equal. change (Z.to_nat 12) with 12%nat. apply firstn_all2. rewrite skipn_length. unfold zlen in *. lia. }
  rewrite SL. cbn [bind]. assert (LS : zlen (skipn 12 data) = zlen data - 12) by (unfold zlen in *; rewrite skipn_length; lia).
  destruct p; (destruct (field 4 4 data =? 2147483649); [|reflexivity]); cbn [negb andb].
  - unfold ConnectResp_Decode. cbn [resp_len] in L. cbn [seen_status answer_status]. destruct (is_v3 ver) eqn:V.
    + change (at_ (skipn 12 data) 3) with (at_ (skipn 12 data) (Z.of_nat 3)). rewrite (at_in _ 3) by lia. cbn [bind]. rewrite field_skip. cbn [Nat.add].
      destruct (slice (skipn 12 data) (3 + 1) (3 + 1 + 16)) eqn:S1; [|apply slice_noerr in S1; contradiction|apply slice_panic_iff in S1; lia]. cbn [bind].
      change (3 + 1 + 16) with (Z.of_nat 20). rewrite (at_in _ 20) by lia. reflexivity.
    + change (at_ (skipn 12 data) 0) with (at_ (skipn 12 data) (Z.of_nat 0)). rewrite (at_in _ 0) by lia. cbn [bind]. rewrite field_skip. cbn [Nat.add].
      destruct (slice (skipn 12 data) (0 + 1) (0 + 1 + 16)) eqn:S1; [|apply slice_noerr in S1; contradiction|apply slice_panic_iff in S1; lia]. cbn [bind].
      change (0 + 1 + 16) with (Z.of_nat 17). rewrite (at_in _ 17) by lia. reflexivity.
  - unfold srsp_Decode. cbn [resp_len] in L. change (get_be 4 (skipn 12 data) 0 4) with (get_be 4 (skipn 12 data) (Z.of_nat 0) 4). rewrite (get_be_in 4 _ 0) by lia. cbn [bind].
    change (get_be 4 (skipn 12 data) 4 8) with (get_be 4 (skipn 12 data) (Z.of_nat 4) 8). rewrite (get_be_in 4 _ 4) by lia. cbn [bind]. change (at_ (skipn 12 data) 8) with (at_ (skipn 12 data) (Z.of_nat 8)). rewrite (at_in _ 8) by lia. cbn [bind sr_status]. rewrite field_skip. reflexivity.
  - unfold LoginRsp_Decode. cbn [resp_len] in L. change (get_be 4 (skipn 12 data) 0 4) with (get_be 4 (skipn 12 data) (Z.of_nat 0) 4). rewrite (get_be_in 4 _ 0) by lia. cbn [bind]. rewrite field_skip.
    destruct (slice (skipn 12 data) 4 20) eqn:S1; [|apply slice_noerr in S1; contradiction|apply slice_panic_iff in S1; lia]. cbn [bind].
    change (at_ (skipn 12 data) 20) with (at_ (skipn 12 data) (Z.of_nat 20)). rewrite (at_in _ 20) by lia. reflexivity.
Qed.
(** What the gateway had sent when the client read: the bytes of the first read. *)
Definition first_read (n : Z) (st : list rd) (b : bytes) : Prop := exists b0 r, st = Data b0 :: r /\ b = firstn (Z.to_nat n) b0.
(** Creating a session, exactly.  A usable session appears only for a written login and a complete
    answer with the status the client sees equal to 0; this is the claim for SGIP, SMGP and CMPP 2.
    For CMPP 3 only the low byte of the status is seen.  It never panics. *)
Theorem C65_usable_partial : forall p ac wok st now s rest, NewSession p ac wok st now = Ok (MSess s rest) -> HealthCheck s = true ->
  let v3 := is_v3 (ac_Version ac) in
  wok = true /\ exists b, first_read (answer_len p v3) st b /\ is_answer p v3 b /\ seen_status p v3 b = 0 /\ ((p = P_CMPP -> v3 = false) -> answer_status p v3 b = 0).
Proof.
  intros p ac wok st now s rest H HC. cbn zeta. set (v3 := is_v3 (ac_Version ac)). unfold NewSession in H. destruct wok; [|discriminate H]. cbn [negb] in H. split; [reflexivity|].
  assert (RL : resp_len p (ac_Version ac) = answer_len p v3) by (unfold resp_len, answer_len; destruct p; reflexivity). rewrite RL in H. unfold Read in H. destruct st as [|[b0|] r]; try discriminate H.
  assert (X : exists b rest', (if zlen b0 <=? answer_len p v3 then (Bytes b0, r) else (Bytes (firstn (Z.to_nat (answer_len p v3)) b0), Data (skipn (Z.to_nat (answer_len p v3)) b0) :: r)) = (Bytes b, rest') /\ b = firstn (Z.to_nat (answer_len p v3)) b0).
  { destruct (zlen b0 <=? answer_len p v3) eqn:L; [|eauto]. exists b0, r. split; [reflexivity|]. symmetry. apply firstn_all2. unfold zlen in L. lia. }
  destruct X as (b & rest' & E & EB). rewrite E in H. destruct (zlen b =? answer_len p v3) eqn:LB; cbn [negb] in H.
  - apply Z.eqb_eq in LB. rewrite (answer_spec p (ac_Version ac) b) in H by (rewrite RL; exact LB). cbn [bind] in H. fold v3 in H.
    destruct ((field 0 4 b =? zlen b) && (field 4 4 b =? 2147483649) && (seen_status p v3 b =? 0)) eqn:B; [|discriminate H].
    apply andb_true_iff in B as [B B3]. apply andb_true_iff in B as [B1 B2]. apply Z.eqb_eq in B1, B2, B3. exists b. split; [exists b0, r; auto|]. split; [split; [exact LB|split; assumption]|]. split; [exact B3|].
    intros V. destruct p; cbn [seen_status answer_status] in *; auto. rewrite (V eq_refl) in *. exact B3.
  - assert (s = CSess p CConnect true (Some ac) 0 now) as -> by congruence. discriminate HC.
Qed.
(** The other direction: a complete success answer that is there at the read gives a usable session. *)
Theorem C65_success : forall p ac st r b now, let v3 := is_v3 (ac_Version ac) in is_answer p v3 b -> seen_status p v3 b = 0 -> st = Data b :: r ->
  exists s rest, NewSession p ac true st now = Ok (MSess s rest) /\ HealthCheck s = true /\ rest = r.
Proof.
  intros p ac st r b now v3 (A1 & A2 & A3) S ->. assert (RL : resp_len p (ac_Version ac) = answer_len p v3) by (unfold resp_len, answer_len; destruct p; reflexivity).
  unfold NewSession. cbn [negb]. rewrite RL. unfold Read. replace (zlen b <=? answer_len p v3) with true by lia. replace (zlen b =? answer_len p v3) with true by lia. cbn [negb].
  rewrite (answer_spec p (ac_Version ac) b) by (rewrite RL; exact A1). cbn [bind]. fold v3. rewrite A2, A3, S, !Z.eqb_refl. cbn [andb]. eexists. eexists. split; [reflexivity|]. split; reflexivity.
Qed.
(** Every other complete answer gives no session at all. *)
Theorem C65_rejected : forall p ac st r b now, let v3 := is_v3 (ac_Version ac) in zlen b = answer_len p v3 -> ~ (is_answer p v3 b /\ seen_status p v3 b = 0) -> st = Data b :: r ->
  NewSession p ac true st now = Ok MNil.
Proof.
  intros p ac st r b now v3 A1 N ->. assert (RL : resp_len p (ac_Version ac) = answer_len p v3) by (unfold resp_len, answer_len; destruct p; reflexivity).
  unfold NewSession. cbn [negb]. rewrite RL. unfold Read. replace (zlen b <=? answer_len p v3) with true by lia. replace (zlen b =? answer_len p v3) with true by lia. cbn [negb].
  rewrite (answer_spec p (ac_Version ac) b) by (rewrite RL; exact A1). cbn [bind]. fold v3.
  destruct ((field 0 4 b =? zlen b) && (field 4 4 b =? 2147483649) && (seen_status p v3 b =? 0)) eqn:B; [|reflexivity]. exfalso. apply N.
  apply andb_true_iff in B as [B B3]. apply andb_true_iff in B as [B1 B2]. apply Z.eqb_eq in B1, B2, B3. split; [split; [|split]|]; assumption.
Qed.
(** The exception: a CMPP 3 gateway that refuses with a status that is a multiple of 256. *)
Theorem C65_refuted : forall ac k au v r now, is_v3 (ac_Version ac) = true -> 0 < k < 2 ^ 24 -> length au = 16%nat ->
  let b := be 4 33 ++ be 4 2147483649 ++ be 4 7 ++ be 4 (256 * k) ++ au ++ [v] in
  answer_status P_CMPP true b <> 0 /\ exists s rest, NewSession P_CMPP ac true (Data b :: r) now = Ok (MSess s rest) /\ HealthCheck s = true.
Proof.
  intros ac k au v r now V K LA b. change (2 ^ 24) with 16777216 in K.
  assert (B : b = be 4 33 ++ be 4 2147483649 ++ be 4 7 ++ be 3 k ++ [0] ++ au ++ [v]).
  { unfold b. do 3 f_equal. change (be 4 (256 * k)) with (be 3 (256 * k / 256) ++ [(256 * k) mod 256]). rewrite (Z.mul_comm 256), Z.div_mul, Z.mod_mul by lia. rewrite <- app_assoc. reflexivity. }
  assert (LB : zlen b = 33) by (unfold b; rewrite !zlen_app, !zlen_be; unfold zlen; rewrite LA; reflexivity).
  assert (S0 : field 12 4 b = 256 * k).
  { unfold field, b. change (skipn 12 (be 4 33 ++ be 4 2147483649 ++ be 4 7 ++ be 4 (256 * k) ++ au ++ [v])) with (be 4 (256 * k) ++ au ++ [v]). rewrite firstn_app, length_be, Nat.sub_diag, firstn_O, app_nil_r. rewrite firstn_all2 by (rewrite length_be; lia). apply unbe_be_small. change (256 ^ Z.of_nat 4) with 4294967296. lia. }
  split; [cbn [answer_status]; rewrite S0; lia|].
  destruct (C65_success P_CMPP ac (Data b :: r) r b now) as (s & rest & E & H & _); [rewrite V; split; [exact LB|split; [rewrite LB; reflexivity|reflexivity]]| |reflexivity|eauto].
  rewrite V. cbn [seen_status]. rewrite B. unfold field. change (skipn 15 (be 4 33 ++ be 4 2147483649 ++ be 4 7 ++ be 3 k ++ [0] ++ au ++ [v])) with ([0] ++ au ++ [v]). reflexivity.
Qed.
(** An answer that arrives in part gives a session object that is not usable (it is not nil, so it
    takes a place in the list of sessions until the next maintenance round). *)
Theorem C65_short : forall p ac b r now, zlen b < answer_len p (is_v3 (ac_Version ac)) ->
  exists s, NewSession p ac true (Data b :: r) now = Ok (MSess s r) /\ HealthCheck s = false.
Proof.
  intros p ac b r now L. assert (RL : resp_len p (ac_Version ac) = answer_len p (is_v3 (ac_Version ac))) by (unfold resp_len, answer_len; destruct p; reflexivity).
  unfold NewSession. cbn [negb]. rewrite RL. unfold Read. replace (zlen b <=? answer_len p (is_v3 (ac_Version ac))) with true by lia. replace (zlen b =? answer_len p (is_v3 (ac_Version ac))) with false by lia. cbn [negb].
  eexists. split; reflexivity.
Qed.
Theorem C65_no_panic : forall p ac wok st now, exists m, NewSession p ac wok st now = Ok m.
Proof.
  intros p ac wok st now. unfold NewSession. destruct wok; cbn [negb]; [|eauto]. destruct (Read (resp_len p (ac_Version ac)) st) as [[| |b] rest]; [eauto|eauto|].
  destruct (zlen b =? resp_len p (ac_Version ac)) eqn:L; cbn [negb]; [|eauto]. apply Z.eqb_eq in L. rewrite (answer_spec p _ b L). cbn [bind]. destruct (_ && _); eauto.
Qed.

(** SMGP answers: success, refusal with status 21, and the success answer cut in two. *)
Definition smgp_answer (status : Z) : bytes := be 4 33 ++ be 4 2147483649 ++ be 4 7 ++ be 4 status ++ repeat 9 16 ++ [48].
Example C65_case : forall ac, exists s, NewSession P_SMGP ac true [Data (smgp_answer 0)] 5 = Ok (MSess s []) /\ HealthCheck s = true
  /\ NewSession P_SMGP ac true [Data (smgp_answer 21)] 5 = Ok MNil /\ NewSession P_SMGP ac true [Data (smgp_answer 256)] 5 = Ok MNil
  /\ NewSession P_SMGP ac true [Data (firstn 20 (smgp_answer 0)); Data (skipn 20 (smgp_answer 0))] 5 = Ok (MSess (CSess P_SMGP CConnect true (Some ac) 0 5) [Data (skipn 20 (smgp_answer 0))]).
Proof. intros ac. eexists. split; [reflexivity|]. split; [reflexivity|]. split; [reflexivity|]. split; reflexivity. Qed.
Print Assumptions C65_usable_partial.
Print Assumptions C65_success.
Print Assumptions C65_rejected.
Print Assumptions C65_refuted.
Print Assumptions C65_short.
Print Assumptions C65_no_panic.
