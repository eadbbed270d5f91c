(** * PropFrame: properties C47 (server framing), C48 (prompt handling) and C49 (illegal packets
    and dispatch). *)
From Verif Require Import Base SpecWire WireProofs CmppModel CmppProofs PropCmpp FrameModel SpecFrame.

Definition commands (p : proto) : list Z :=
  with_responses match p with P_CMPP => cmpp_requests | P_SGIP => sgip_requests | P_SMGP => smgp_requests end.
Definition wire (k : packet) : bytes := wire_of (pk_cmd k) (pk_seq k) (pk_body k).
Definition wires (l : list packet) : bytes := concat (map wire l).
(** A packet a peer may send to the server speaking [p]. *)
Definition legal (p : proto) (k : packet) : Prop :=
  In (pk_cmd k) (commands p) /\ 0 <= pk_seq k < 2 ^ 32 /\ bytes_ok (pk_body k) /\ 12 + zlen (pk_body k) <= 5120.

(** ** Lemmas *)
Lemma commands_range p c : In c (commands p) -> 0 < c < req_max p \/ RESP < c < RESP + req_max p.
Proof.
  intros H. unfold RESP. apply (in_map (fun x => ((0 <? x) && (x <? req_max p)) || ((2147483648 <? x) && (x <? 2147483648 + req_max p)))) in H.
  assert (F : Forall (fun b => b = true) (map (fun x => ((0 <? x) && (x <? req_max p)) || ((2147483648 <? x) && (x <? 2147483648 + req_max p))) (commands p))).
  { destruct p; vm_compute; repeat constructor. }
  rewrite Forall_forall in F. specialize (F _ H). lia.
Qed.
Lemma commands_u32 p c : In c (commands p) -> 0 <= c < 2 ^ 32.
Proof. intros H. apply commands_range in H. change (2 ^ 32) with 4294967296. unfold RESP in H. destruct p; cbn [req_max] in H; lia. Qed.
Lemma known_bool p c : has_suffix (cmd_String p c) unknown_suffix = negb (existsb (Z.eqb c) (commands p)).
Proof.
  unfold cmd_String. destruct ((0 <? c) && (c <? req_max p)) eqn:C1.
  - assert (E : c = 1 \/ c = 2 \/ c = 3 \/ c = 4 \/ c = 5 \/ c = 6 \/ c = 7 \/ c = 8 \/ c = 9) by (destruct p; cbn [req_max] in C1; lia).
    destruct p; cbn [req_max] in C1; repeat (destruct E as [E|E]); subst c; try lia; vm_compute; reflexivity.
  - destruct ((RESP <? c) && (c <? RESP + req_max p)) eqn:C2.
    + unfold RESP in *. assert (E : exists d, c = 2147483648 + d) by (exists (c - 2147483648); lia). destruct E as [d ->].
      assert (E : d = 1 \/ d = 2 \/ d = 3 \/ d = 4 \/ d = 5 \/ d = 6 \/ d = 7 \/ d = 8 \/ d = 9) by (destruct p; cbn [req_max] in C2; lia).
      destruct p; cbn [req_max] in C2; repeat (destruct E as [E|E]); subst d; try lia; vm_compute; reflexivity.
    + destruct (existsb (Z.eqb c) (commands p)) eqn:X; [|reflexivity].
      apply existsb_exists in X as (y & Hy & Ey). apply Z.eqb_eq in Ey. subst y. apply commands_range in Hy. lia.
Qed.
Lemma known_iff p c : has_suffix (cmd_String p c) unknown_suffix = false <-> In c (commands p).
Proof.
  rewrite known_bool, negb_false_iff, existsb_exists. split.
  - intros (y & Hy & Ey). apply Z.eqb_eq in Ey. subst y. exact Hy.
  - intros H. exists c. split; [exact H|apply Z.eqb_refl].
Qed.
Lemma wire_head k : wire k = render (head (12 + zlen (pk_body k)) (pk_cmd k) (pk_seq k)) ++ pk_body k.
Proof. unfold wire, wire_of, render, head. cbn [map concat render1]. rewrite app_nil_r, <- !app_assoc. reflexivity. Qed.
Lemma zlen_wire k : zlen (wire k) = 12 + zlen (pk_body k).
Proof. rewrite wire_head, zlen_app, zlen_render. reflexivity. Qed.
Lemma zlen_head12 a b c : zlen (render (head a b c)) = 12.
Proof. rewrite zlen_render. reflexivity. Qed.
Lemma length12 (l : bytes) : zlen l = 12 -> length l = 12%nat.
Proof. unfold zlen. lia. Qed.
Lemma firstn_head (h : bytes) n r : zlen h = Z.of_nat n -> firstn n (h ++ r) = h.
Proof. intros H. assert (length h = n) by (unfold zlen in H; lia). rewrite firstn_app. replace (n - length h)%nat with 0%nat by lia.
  rewrite firstn_O, app_nil_r. apply firstn_all2. lia. Qed.
Lemma skipn_head (h : bytes) n r : zlen h = Z.of_nat n -> skipn n (h ++ r) = r.
Proof. intros H. assert (length h = n) by (unfold zlen in H; lia). rewrite skipn_app. replace (n - length h)%nat with 0%nat by lia.
  rewrite skipn_all2 by lia. reflexivity. Qed.
(** Cutting a known stream: either less than the first block is there, or all of it and more. *)
Lemma cut_block (b t w r : bytes) : b ++ t = w ++ r -> (zlen b < zlen w /\ exists x, w = b ++ x) \/ (exists x, b = w ++ x /\ x ++ t = r).
Proof.
  revert w. induction b as [|a b IH]; intros w H.
  - destruct w as [|c w]; [right; exists []; auto|]. left. split; [unfold zlen; cbn [length]; lia|]. exists (c :: w). reflexivity.
  - destruct w as [|c w].
    + right. exists (a :: b). auto.
    + cbn [app] in H. injection H as -> H. destruct (IH w H) as [[L [x ->]]|[x [-> X]]].
      * left. split; [unfold zlen in *; cbn [length]; lia|]. exists x. reflexivity.
      * right. exists x. auto.
Qed.
Lemma head_of_prefix k x b drain p : legal p k -> b ++ x = wire k -> 12 <= zlen b ->
  UnpackHead (Peek drain 12 b) = Ok (12 + zlen (pk_body k), pk_cmd k, pk_seq k).
Proof.
  intros (L1 & L2 & L3 & L4) H H12. unfold Peek. change (12 <=? 0) with false. cbv iota. replace (zlen b <? 12) with false by lia.
  pose proof (commands_u32 _ _ L1). pose proof (zlen_nonneg (pk_body k)).
  assert (E : firstn (Z.to_nat 12) b = render (head (12 + zlen (pk_body k)) (pk_cmd k) (pk_seq k)) ++ []).
  { rewrite app_nil_r. change (Z.to_nat 12) with 12%nat. transitivity (firstn 12 (b ++ x)).
    - rewrite firstn_app. replace (12 - length b)%nat with 0%nat by (unfold zlen in H12; lia). rewrite firstn_O, app_nil_r. reflexivity.
    - rewrite H, wire_head. apply firstn_head. rewrite zlen_head12. reflexivity. }
  rewrite E. apply UnpackHead_head; lia.
Qed.
(** What the header check answers on the beginning of a legal stream. *)
Lemma dch_short p drain k b x : legal p k -> b ++ x = wire k -> zlen b < zlen (wire k) -> DecodeAndCheckHeader p drain b = Ok FWait.
Proof.
  intros L H Hs. unfold DecodeAndCheckHeader. destruct (zlen b <? 12) eqn:C; [reflexivity|].
  rewrite (head_of_prefix k x b drain p L H) by lia. cbn [bind]. destruct L as (L1 & L2 & L3 & L4).
  rewrite zlen_wire in Hs. pose proof (zlen_nonneg (pk_body k)).
  unfold PacketMax, HeadLen. replace (_ || _) with false by lia.
  rewrite (proj2 (known_iff p (pk_cmd k)) L1).
  replace (zlen b <? 12 + zlen (pk_body k)) with true by lia. reflexivity.
Qed.
Definition body_of (drain : bool) (k : packet) (r : bytes) : bytes :=
  match pk_body k with [] => if drain then r else [] | b => b end.
Definition rest_of (drain : bool) (k : packet) (r : bytes) : bytes :=
  match pk_body k with [] => if drain then [] else r | _ => r end.
Lemma dch_full p drain k r : legal p k ->
  DecodeAndCheckHeader p drain (wire k ++ r) = Ok (FPass (Packet (pk_cmd k) (pk_seq k) (body_of drain k r)) (rest_of drain k r)).
Proof.
  intros L. unfold DecodeAndCheckHeader. rewrite zlen_app, zlen_wire. pose proof (zlen_nonneg (pk_body k)). pose proof (zlen_nonneg r).
  replace (_ <? 12) with false by lia.
  assert (P : Peek drain 12 (wire k ++ r) = Peek drain 12 (wire k)).
  { unfold Peek. change (12 <=? 0) with false. cbv iota. rewrite zlen_app, zlen_wire.
    replace (_ <? 12) with false by lia. replace (_ <? 12) with false by lia.
    rewrite firstn_app. replace (Z.to_nat 12 - length (wire k))%nat with 0%nat by (pose proof (zlen_wire k); unfold zlen in *; lia).
    rewrite firstn_O, app_nil_r. reflexivity. }
  rewrite P, (head_of_prefix k [] (wire k) drain p L) by (rewrite ?app_nil_r, ?zlen_wire; auto; lia). cbn [bind].
  destruct L as (L1 & L2 & L3 & L4).
  unfold PacketMax, HeadLen. replace (_ || _) with false by lia.
  rewrite (proj2 (known_iff p (pk_cmd k)) L1).
  replace (_ <? 12 + zlen (pk_body k)) with false by lia.
  assert (D : Discard drain 12 (wire k ++ r) = pk_body k ++ r).
  { unfold Discard. change (12 <=? 0) with false. cbv iota. rewrite zlen_app, zlen_wire. replace (_ <? 12) with false by lia.
    rewrite wire_head, <- app_assoc. apply skipn_head. rewrite zlen_head12. reflexivity. }
  rewrite D. replace (12 + zlen (pk_body k) - 12) with (zlen (pk_body k)) by lia.
  unfold body_of, rest_of, Peek, Discard. destruct (pk_body k) as [|a b] eqn:Eb.
  - change (zlen [] <=? 0) with true. cbv iota. reflexivity.
  - rewrite <- Eb in *. assert (0 < zlen (pk_body k)) by (rewrite Eb; unfold zlen; cbn [length]; lia).
    replace (_ <=? 0) with false by lia. rewrite zlen_app. replace (_ <? _) with false by lia.
    rewrite firstn_head, skipn_head by (unfold zlen; lia). reflexivity.
Qed.
Lemma dch_nil p drain : DecodeAndCheckHeader p drain [] = Ok FWait.
Proof. reflexivity. Qed.

(** Either the library's "nothing", or no packet without a body. *)
Definition exact_lib (drain : bool) (ps : list packet) : Prop := drain = false \/ Forall (fun k => pk_body k <> []) ps.
Lemma exact_pass p drain k r : legal p k -> exact_lib drain [k] -> DecodeAndCheckHeader p drain (wire k ++ r) = Ok (FPass k r).
Proof.
  intros L E. rewrite dch_full by auto. unfold body_of, rest_of. destruct E as [->|E].
  - destruct k as [c q b]; cbn [pk_body pk_cmd pk_seq]. destruct b; reflexivity.
  - apply Forall_inv in E. destruct k as [c q b]; cbn [pk_body pk_cmd pk_seq] in *. destruct b; [congruence|reflexivity].
Qed.
Lemma exact_cons drain k ps : exact_lib drain (k :: ps) -> exact_lib drain [k] /\ exact_lib drain ps.
Proof. intros [H|H]; [split; left; auto|]. split; right.
  - constructor; [exact (Forall_inv H)|constructor].
  - exact (Forall_inv_tail H).
Qed.

Lemma recv_step p drain : forall qs buf seg t got, Forall (legal p) qs -> exact_lib drain qs ->
  (buf ++ seg) ++ t = wires qs ->
  exists d qs' buf', recv p drain (FConn buf true got) seg = Ok (FConn buf' true (got ++ d)) /\
    qs = d ++ qs' /\ buf' ++ t = wires qs' /\ buf ++ seg = wires d ++ buf' /\
    (length d <= 1)%nat /\ (d = [] -> match qs' with [] => True | k :: _ => zlen buf' < zlen (wire k) end).
Proof.
  intros qs buf seg t got L X H. unfold recv. cbn [fc_open negb fc_buf fc_got]. destruct qs as [|k qs].
  - unfold wires in H. cbn [map concat] in H. apply app_eq_nil in H as [H ->]. rewrite H, dch_nil. cbn [bind].
    exists [], [], []. rewrite app_nil_r. repeat split; auto.
  - unfold wires in H. cbn [map concat] in H. destruct (cut_block _ _ _ _ H) as [[Hs [x Hx]]|[x [Hx Ht]]].
    + rewrite (dch_short p drain k (buf ++ seg) x) by (auto; eapply Forall_inv; eauto). cbn [bind].
      exists [], (k :: qs), (buf ++ seg). rewrite app_nil_r. repeat split; auto.
    + apply exact_cons in X as [X1 X2]. rewrite Hx, exact_pass by (auto; eapply Forall_inv; eauto). cbn [bind].
      exists [k], qs, x. repeat split; auto. unfold wires. cbn [map concat]. rewrite app_nil_r. reflexivity.
      discriminate.
Qed.
Lemma recv_all_legal p drain : forall segs qs buf t got, Forall (legal p) qs -> exact_lib drain qs ->
  (buf ++ concat segs) ++ t = wires qs ->
  exists d qs' buf', recv_all p drain (FConn buf true got) segs = Ok (FConn buf' true (got ++ d)) /\
    qs = d ++ qs' /\ buf' ++ t = wires qs' /\ buf ++ concat segs = wires d ++ buf'.
Proof.
  induction segs as [|s segs IH]; intros qs buf t got L X H; cbn [recv_all concat] in *.
  - exists [], qs, buf. rewrite !app_nil_r in *. auto.
  - rewrite app_assoc, <- app_assoc in H.
    destruct (recv_step p drain qs buf s (concat segs ++ t) got L X H) as (d & qs' & b' & E & -> & Hb & Hc & _). rewrite E. cbn [bind].
    rewrite app_assoc in Hb. apply Forall_app in L as [L1 L2].
    assert (X2 : exact_lib drain qs') by (destruct X as [X|X]; [left; auto|right; apply Forall_app in X; tauto]).
    destruct (IH qs' b' t (got ++ d) L2 X2 Hb) as (d2 & qs2 & b2 & E2 & -> & Hb2 & Hc2).
    exists (d ++ d2), qs2, b2. rewrite E2, <- !app_assoc. split; [reflexivity|]. split; [reflexivity|]. split; [exact Hb2|].
    rewrite app_assoc, Hc, <- app_assoc, Hc2, app_assoc. unfold wires. rewrite map_app, concat_app. reflexivity.
Qed.

(** What the header check can answer at all. *)
Lemma unpack_be (b : bytes) : bytes_ok b -> zlen b = 12 -> exists l c q,
  UnpackHead b = Ok (l, c, q) /\ b = be 4 l ++ be 4 c ++ be 4 q /\ 0 <= l < 2 ^ 32 /\ 0 <= c < 2 ^ 32 /\ 0 <= q < 2 ^ 32.
Proof.
  intros Hb H. assert (L : length b = 12%nat) by (unfold zlen in H; lia).
  do 12 (destruct b as [|? b]; [discriminate L|]). destruct b; [|discriminate L]. clear L.
  set (b := [z; z0; z1; z2; z3; z4; z5; z6; z7; z8; z9; z10]) in *.
  exists (unbe [z; z0; z1; z2]), (unbe [z3; z4; z5; z6]), (unbe [z7; z8; z9; z10]).
  assert (K : forall l : bytes, length l = 4%nat -> bytes_ok l -> be 4 (unbe l) = l /\ 0 <= unbe l < 2 ^ 32).
  { intros l Hl Ho. split; [rewrite <- Hl; apply be_unbe; auto|]. pose proof (unbe_range l Ho) as U. unfold zlen in U. rewrite Hl in U. exact U. }
  unfold bytes_ok in Hb. unfold b in Hb. rewrite !Forall_cons_iff in Hb. 
  destruct (K [z; z0; z1; z2]) as [E1 R1]; [reflexivity|unfold bytes_ok; rewrite !Forall_cons_iff; tauto|].
  destruct (K [z3; z4; z5; z6]) as [E2 R2]; [reflexivity|unfold bytes_ok; rewrite !Forall_cons_iff; tauto|].
  destruct (K [z7; z8; z9; z10]) as [E3 R3]; [reflexivity|unfold bytes_ok; rewrite !Forall_cons_iff; tauto|].
  rewrite E1, E2, E3. repeat (split; [first [reflexivity|assumption]|]). assumption.
Qed.
Lemma bytes_ok_app a b : bytes_ok (a ++ b) <-> bytes_ok a /\ bytes_ok b.
Proof. apply Forall_app. Qed.
Lemma dch_any p buf : bytes_ok buf ->
  exists fo, DecodeAndCheckHeader p false buf = Ok fo /\
    match fo with FPass k rest => legal p k /\ buf = wire k ++ rest | _ => True end.
Proof.
  intros Hb. unfold DecodeAndCheckHeader. destruct (zlen buf <? 12) eqn:C; [eexists; split; [reflexivity|exact I]|].
  assert (S : buf = firstn 12 buf ++ skipn 12 buf) by (symmetry; apply firstn_skipn).
  set (h := firstn 12 buf) in *. set (r := skipn 12 buf) in *.
  assert (P : Peek false 12 buf = h). { unfold Peek. change (12 <=? 0) with false. cbv iota. rewrite C. reflexivity. }
  assert (Hh : zlen h = 12) by (unfold h, zlen in *; rewrite firstn_length; lia).
  assert (D : Discard false 12 buf = r). { unfold Discard. change (12 <=? 0) with false. cbv iota. rewrite C. reflexivity. }
  rewrite S in Hb. apply bytes_ok_app in Hb as [Hh2 Hr]. destruct (unpack_be h Hh2 Hh) as (l & c & q & E & Eh & Rl & Rc & Rq).
  rewrite P, E. cbn [bind]. destruct ((PacketMax <? l) || (l <? HeadLen)) eqn:C2; [eexists; split; [reflexivity|exact I]|].
  destruct (has_suffix _ _) eqn:C3; [eexists; split; [reflexivity|exact I]|].
  destruct (zlen buf <? l) eqn:C4; [eexists; split; [reflexivity|exact I]|]. eexists. split; [reflexivity|].
  rewrite D. unfold PacketMax, HeadLen in *.
  assert (Lb : zlen buf = 12 + zlen r) by (rewrite S, zlen_app, Hh; reflexivity).
  assert (B : Peek false (l - 12) r = firstn (Z.to_nat (l - 12)) r /\ Discard false (l - 12) r = skipn (Z.to_nat (l - 12)) r).
  { unfold Peek, Discard. destruct (l - 12 <=? 0) eqn:C5.
    - replace (l - 12) with 0 by lia. split; reflexivity.
    - replace (zlen r <? l - 12) with false by lia. split; reflexivity. }
  destruct B as [-> ->].
  assert (Lf : zlen (firstn (Z.to_nat (l - 12)) r) = l - 12) by (unfold zlen in *; rewrite firstn_length; lia).
  split.
  - unfold legal. cbn [pk_cmd pk_seq pk_body]. rewrite Lf. repeat split; try lia; [apply known_iff; auto|apply bytes_ok_firstn; auto].
  - unfold wire, wire_of. cbn [pk_cmd pk_seq pk_body]. rewrite Lf. replace (12 + (l - 12)) with l by lia.
    rewrite <- !app_assoc. rewrite firstn_skipn. rewrite S, Eh, <- !app_assoc. reflexivity.
Qed.

Lemma recv_closed p drain segs buf got : recv_all p drain (FConn buf false got) segs = Ok (FConn buf false got).
Proof. induction segs as [|s segs IH]; [reflexivity|]. cbn [recv_all]. unfold recv. cbn [fc_open negb bind]. exact IH. Qed.
(** ** C47 *)
(** Packets sent, any segmentation, any amount received so far: what was handed over is, in
    order and unmodified, the beginning of what was sent; the rest is still buffered; the
    connection stays open.  Holds if [Peek 0]/[Discard 0] do nothing, or if no packet is
    without body. *)
Theorem C47_partial : forall p drain ps segs t, Forall (legal p) ps -> exact_lib drain ps ->
  concat segs ++ t = wires ps ->
  exists c rest, recv_all p drain fconn0 segs = Ok c /\ fc_open c = true /\
    ps = fc_got c ++ rest /\ concat segs = wires (fc_got c) ++ fc_buf c.
Proof.
  intros p drain ps segs t L X H. destruct (recv_all_legal p drain segs ps [] t [] L X H) as (d & qs & b & E & -> & Hb & Hc).
  exists (FConn b true d), qs. auto.
Qed.
(** Whatever bytes arrive (legal or not): the packets handed over, written down again, are the
    beginning of the received stream. *)
Theorem C47_any_stream : forall p segs, bytes_ok (concat segs) ->
  exists c x, recv_all p false fconn0 segs = Ok c /\ Forall (legal p) (fc_got c) /\ concat segs = wires (fc_got c) ++ x /\
    (fc_open c = true -> x = fc_buf c).
Proof.
  assert (G : forall p segs buf op got, bytes_ok (buf ++ concat segs) -> Forall (legal p) got ->
    exists c x, recv_all p false (FConn buf op got) segs = Ok c /\ Forall (legal p) (fc_got c) /\
      wires got ++ buf ++ concat segs = wires (fc_got c) ++ x /\ (fc_open c = true -> x = fc_buf c)).
  { intros p. induction segs as [|s segs IH]; intros buf op got Hb Hg; cbn [recv_all concat] in *.
    - exists (FConn buf op got), buf. rewrite app_nil_r. auto.
    - unfold recv at 1. cbn [fc_open fc_buf fc_got]. destruct op; cbn [negb].
      + rewrite app_assoc in Hb. pose proof Hb as Hb'. apply bytes_ok_app in Hb as [Hb1 Hb2].
        destruct (dch_any p (buf ++ s) Hb1) as (fo & E & K). rewrite E. cbn [bind]. destruct fo as [| |k rest]; cbn [bind].
        * destruct (IH (buf ++ s) true got Hb' Hg) as (c & x & R). exists c, x. rewrite (app_assoc buf s). exact R.
        * destruct (IH (buf ++ s) false got Hb' Hg) as (c & x & R). exists c, x. rewrite (app_assoc buf s). exact R.
        * destruct K as [Lk Eb]. destruct (IH rest true (got ++ [k])) as (c & x & R).
          { rewrite Eb in Hb'. rewrite <- app_assoc in Hb'. apply bytes_ok_app in Hb' as [_ Hb']. exact Hb'. }
          { apply Forall_app. split; auto. }
          exists c, x. destruct R as (R1 & R2 & R3 & R4). repeat split; auto. rewrite <- R3. rewrite (app_assoc buf s), Eb.
          unfold wires. rewrite map_app, concat_app. cbn [map concat]. rewrite app_nil_r, <- !app_assoc. reflexivity.
      + cbn [bind]. rewrite recv_closed. exists (FConn buf false got), (buf ++ s ++ concat segs). cbn [fc_got fc_open].
        repeat split; auto. discriminate. }
  intros p segs Hb. destruct (G p segs [] true [] Hb (Forall_nil _)) as (c & x & R). exists c, x. exact R.
Qed.

(** With the library's documented "n <= 0 means everything", a packet without body swallows
    whatever is buffered behind it: for all packets [k], [q] arriving together, [q] is never
    handed over; its bytes become the body of [k]. *)
Theorem C47_refuted : forall p k q segs, legal p k -> pk_body k = [] ->
  recv_all p true fconn0 ((wire k ++ wire q) :: segs) =
  recv_all p true (FConn [] true [Packet (pk_cmd k) (pk_seq k) (wire q)]) segs.
Proof.
  intros p k q segs L B. cbn [recv_all]. unfold recv at 1. cbn [fc_open negb fc_buf fc_got fconn0]. cbn [app].
  rewrite dch_full by auto. unfold body_of, rest_of. rewrite B. reflexivity.
Qed.
(** A submit behind a heartbeat is lost. *)
Example C47_case_lost : exists c, recv_all P_CMPP true fconn0 [wire (Packet 8 1 []) ++ wire (Packet 4 2 [7; 7])] = Ok c /\
  map pk_seq (fc_got c) = [1] /\ fc_buf c = [].
Proof. eexists. split; [vm_compute; reflexivity|]. split; reflexivity. Qed.
Example C47_case : exists c, recv_all P_CMPP false fconn0 [[0; 0; 0]; [12; 0; 0; 0; 8; 0]; [0; 0; 1; 0; 0; 0; 13; 0]; [0; 0; 4; 0; 0; 0; 2; 9]] = Ok c /\
  fc_got c = [Packet 8 1 []; Packet 4 2 [9]].
Proof. eexists. split; [vm_compute; reflexivity|]. reflexivity. Qed.

(** ** C48 *)
(** How many of the packets [ps] have all their bytes within the first [n] bytes sent. *)
Fixpoint complete (ps : list packet) (n : Z) : nat :=
  match ps with [] => O | k :: r => if zlen (wire k) <=? n then S (complete r (n - zlen (wire k))) else O end.
Definition handled (c : res fconn) : nat := match c with Ok c => length (fc_got c) | _ => O end.

Lemma recv_all_app p drain : forall a c b, recv_all p drain c (a ++ b) = (c' <- recv_all p drain c a ;; recv_all p drain c' b).
Proof. induction a as [|s a IH]; intros c b; cbn [recv_all app bind]; [reflexivity|]. destruct (recv p drain c s); cbn [bind]; auto. Qed.
Lemma complete_split : forall d qs n, 0 <= n -> complete (d ++ qs) (zlen (wires d) + n) = (length d + complete qs n)%nat.
Proof.
  induction d as [|k d IH]; intros qs n Hn; cbn [app complete length Nat.add]; [reflexivity|].
  unfold wires. cbn [map concat]. rewrite zlen_app. fold (wires d). pose proof (zlen_nonneg (wires d)).
  replace (_ <=? _) with true by lia. f_equal. rewrite <- IH by auto. f_equal. lia.
Qed.
(** Exactly one packet is handled per segment, as long as a complete one is there. *)
Theorem C48_exact_partial : forall p drain ps segs s t, Forall (legal p) ps -> exact_lib drain ps ->
  concat (segs ++ [s]) ++ t = wires ps ->
  handled (recv_all p drain fconn0 (segs ++ [s])) =
  Nat.min (S (handled (recv_all p drain fconn0 segs))) (complete ps (zlen (concat (segs ++ [s])))).
Proof.
  intros p drain ps segs s t L X H. rewrite concat_app in *. cbn [concat] in *. rewrite app_nil_r in *.
  rewrite <- app_assoc in H. destruct (recv_all_legal p drain segs ps [] (s ++ t) [] L X H) as (d & qs & b & E & -> & Hb & Hc).
  rewrite recv_all_app. change fconn0 with (FConn [] true []). rewrite E. cbn [bind recv_all app handled fc_got].
  cbn [app] in Hc. rewrite Hc, <- app_assoc.
  apply Forall_app in L as [L1 L2]. assert (X2 : exact_lib drain qs) by (destruct X as [X|X]; [left; auto|right; apply Forall_app in X; tauto]).
  rewrite app_assoc in Hb. destruct (recv_step p drain qs b s t d L2 X2 Hb) as (d1 & qs1 & b1 & E1 & -> & Hb1 & Hc1 & Hl & Hn).
  rewrite E1. cbn [bind handled fc_got]. rewrite Hc1, !zlen_app. pose proof (zlen_nonneg (wires d1)). pose proof (zlen_nonneg b1).
  rewrite complete_split by lia. rewrite complete_split by lia. rewrite app_length.
  destruct d1 as [|k1 [|k2 d1]]; cbn [length] in *; [|lia|lia]. specialize (Hn eq_refl).
  destruct qs1 as [|k1 qs1]; cbn [complete]; [lia|]. replace (_ <=? _) with false by lia. lia.
Qed.
(** So packets that arrive one by one (no segment completes two) are handled at once. *)
Theorem C48_partial : forall p drain ps segs t, Forall (legal p) ps -> exact_lib drain ps ->
  concat segs ++ t = wires ps ->
  (forall a s b, segs = a ++ s :: b -> (complete ps (zlen (concat (a ++ [s]))) <= S (complete ps (zlen (concat a))))%nat) ->
  handled (recv_all p drain fconn0 segs) = complete ps (zlen (concat segs)).
Proof.
  intros p drain ps segs. induction segs as [|s segs IH] using rev_ind; intros t L X H K.
  - cbn [recv_all handled fconn0 fc_got length concat]. destruct ps as [|k ps]; cbn [complete]; [reflexivity|].
    rewrite zlen_wire. pose proof (zlen_nonneg (pk_body k)). change (zlen (@nil Z)) with 0. replace (_ <=? 0) with false by lia. reflexivity.
  - rewrite (C48_exact_partial p drain ps segs s t) by auto. rewrite concat_app in H. cbn [concat] in H. rewrite app_nil_r, <- app_assoc in H.
    rewrite (IH (s ++ t)); auto.
    + specialize (K segs s [] eq_refl). lia.
    + intros a s' b E. apply (K a s' (b ++ [s])). rewrite E, <- app_assoc. reflexivity.
Qed.
(** Two packets in one segment: the second waits for more input, whatever they are. *)
Theorem C48_refuted : forall p k q, legal p k -> legal p q -> exists c,
  recv_all p false fconn0 [wire k ++ wire q] = Ok c /\ fc_got c = [k] /\ fc_buf c = wire q /\
  complete [k; q] (zlen (wire k ++ wire q)) = 2%nat.
Proof.
  intros p k q Lk Lq. cbn [recv_all]. unfold recv. cbn [fc_open negb fc_buf fc_got fconn0 app].
  rewrite exact_pass by (auto; left; auto). cbn [bind]. eexists. split; [reflexivity|]. split; [reflexivity|]. split; [reflexivity|].
  cbn [complete]. rewrite zlen_app. pose proof (zlen_nonneg (wire q)). replace (_ <=? _) with true by lia. replace (_ <=? _) with true by lia. reflexivity.
Qed.
Example C48_case : handled (recv_all P_SMGP false fconn0 [wire (Packet 4 1 []); wire (Packet 2 2 [1])]) = 2%nat.
Proof. vm_compute. reflexivity. Qed.

(** ** C49 *)
(** Which handler a command belongs to, by the protocols' documents; the server acts as the
    gateway, so it has no handler for delivers, queries or answers to requests it never makes. *)
Definition command_handler (p : proto) : list (Z * hkind) :=
  match p with
  | P_CMPP => [(1, HLogin); (2, HTerminate); (4, HSubmit); (8, HActive);
               (2 ^ 31 + 2, HTerminateResp); (2 ^ 31 + 5, HDeliverResp); (2 ^ 31 + 8, HActiveResp)]
  | P_SGIP => [(1, HLogin); (2, HTerminate); (3, HSubmit); (2 ^ 31 + 2, HTerminateResp)]
  | P_SMGP => [(1, HLogin); (2, HSubmit); (4, HActive); (6, HTerminate);
               (2 ^ 31 + 3, HDeliverResp); (2 ^ 31 + 4, HActiveResp); (2 ^ 31 + 6, HTerminateResp)]
  end.
Lemma chain_none {S} p (act : hkind -> packet -> S -> res (action * S)) k s : forall hs,
  (forall h, In h hs -> handler_cmd p h <> pk_cmd k) -> ExecuteChain p act hs k s = Ok (ANone, s).
Proof.
  induction hs as [|h hs IH]; intros H; cbn [ExecuteChain]; [reflexivity|]. unfold handler.
  replace (handler_cmd p h =? pk_cmd k) with false by (symmetry; apply Z.eqb_neq, H; left; auto). cbn [negb bind].
  apply IH. intros h' Hh'. apply H. right. exact Hh'.
Qed.
Lemma chain_pick {S} p (act : hkind -> packet -> S -> res (action * S)) k s h : forall hs1 hs2,
  (forall h', In h' hs1 -> handler_cmd p h' <> pk_cmd k) -> handler_cmd p h = pk_cmd k ->
  ExecuteChain p act (hs1 ++ h :: hs2) k s = act h k s.
Proof.
  induction hs1 as [|h1 hs1 IH]; intros hs2 H E; cbn [ExecuteChain app]; unfold handler.
  - rewrite E, Z.eqb_refl. cbn [negb]. destruct (act h k s) as [[a s']| |]; reflexivity.
  - replace (handler_cmd p h1 =? pk_cmd k) with false by (symmetry; apply Z.eqb_neq, H; left; auto). cbn [negb bind].
    apply IH; auto. intros h' Hh'. apply H. right. exact Hh'.
Qed.
Lemma chain_table {S} p (act : hkind -> packet -> S -> res (action * S)) k s :
  (forall h, In (pk_cmd k, h) (command_handler p) -> ExecuteChain p act (handlers p) k s = act h k s) /\
  ((forall h, ~ In (pk_cmd k, h) (command_handler p)) -> ExecuteChain p act (handlers p) k s = Ok (ANone, s)).
Proof.
  split.
  - intros h H. destruct p; cbn [command_handler In] in H; change (2 ^ 31) with 2147483648 in H.
    all: repeat (destruct H as [H|H]); try contradiction; injection H as Hc Hh; subst h.
    all: unfold handlers; cbn [ExecuteChain]; unfold handler, handler_cmd, RESP; rewrite <- Hc.
    all: repeat match goal with |- context [negb (?a =? ?b)] => let v := eval vm_compute in (negb (a =? b)) in change (negb (a =? b)) with v; cbv iota end.
    all: cbn [bind]; destruct (act _ k s) as [[a s']| |]; reflexivity.
  - intros H. apply chain_none. intros h Hh E. apply (H h). rewrite <- E. 
    destruct p; cbn [handlers In] in Hh; repeat (destruct Hh as [Hh|Hh]); try contradiction; subst h;
      cbn [handler_cmd command_handler In]; unfold RESP; change (2 ^ 31) with 2147483648; auto 12.
Qed.
(** Illegal headers: the connection is closed at once, nothing is consumed and no handler runs. *)
Theorem C49_illegal : forall {S} p drain (act : hkind -> packet -> S -> res (action * S)) len cmd seq r s,
  0 <= len < 2 ^ 32 -> 0 <= cmd < 2 ^ 32 -> 0 <= seq < 2 ^ 32 ->
  (len < 12 \/ 5120 < len \/ ~ In cmd (commands p)) ->
  let buf := be 4 len ++ be 4 cmd ++ be 4 seq ++ r in
  OnTraffic p drain act buf s = Ok (AClose, buf, s).
Proof.
  intros S p drain act len cmd seq r s Hl Hc Hq H buf. unfold OnTraffic, DecodeAndCheckHeader.
  assert (Eb : buf = render (head len cmd seq) ++ r).
  { unfold buf, render, head. cbn [map concat render1]. rewrite app_nil_r, <- !app_assoc. reflexivity. }
  assert (P : Peek drain 12 buf = render (head len cmd seq) ++ []).
  { rewrite app_nil_r. unfold Peek. change (12 <=? 0) with false. cbv iota. rewrite Eb, zlen_app, zlen_head12. pose proof (zlen_nonneg r).
    replace (_ <? 12) with false by lia. apply firstn_head. rewrite zlen_head12. reflexivity. }
  assert (Lb : zlen buf = 12 + zlen r) by (rewrite Eb, zlen_app, zlen_head12; reflexivity). pose proof (zlen_nonneg r).
  replace (zlen buf <? 12) with false by lia. rewrite P, UnpackHead_head by auto. cbn [bind]. unfold PacketMax, HeadLen.
  destruct ((5120 <? len) || (len <? 12)) eqn:C; [reflexivity|].
  destruct (has_suffix _ _) eqn:C2; [reflexivity|]. exfalso. apply known_iff in C2. destruct H as [H|[H|H]]; [lia|lia|auto].
Qed.
(** Legal packets: the handler of the command gets the packet, once, and what it answers is the
    outcome; commands without handler change nothing. *)
Theorem C49_dispatch : forall {S} p drain (act : hkind -> packet -> S -> res (action * S)) k r s,
  legal p k -> exact_lib drain [k] ->
  (forall h, In (pk_cmd k, h) (command_handler p) ->
     OnTraffic p drain act (wire k ++ r) s = ('(a, s') <- act h k s ;; Ok (a, r, s'))) /\
  ((forall h, ~ In (pk_cmd k, h) (command_handler p)) -> OnTraffic p drain act (wire k ++ r) s = Ok (ANone, r, s)).
Proof.
  intros S p drain act k r s L X. unfold OnTraffic. rewrite exact_pass by auto. cbn [bind].
  destruct (chain_table p act k s) as [H1 H2]. split.
  - intros h Hh. rewrite (H1 h Hh). reflexivity.
  - intros H. rewrite (H2 H). reflexivity.
Qed.
(** An incomplete legal packet: nothing happens yet. *)
Theorem C49_incomplete : forall {S} p drain (act : hkind -> packet -> S -> res (action * S)) k b x s,
  legal p k -> b ++ x = wire k -> x <> [] -> OnTraffic p drain act b s = Ok (ANone, b, s).
Proof.
  intros S p drain act k b x s L H N. unfold OnTraffic. rewrite (dch_short p drain k b x); auto.
  rewrite <- H, zlen_app. destruct x; [congruence|]. unfold zlen. cbn [length]. lia.
Qed.
Example C49_case : OnTraffic P_CMPP true (fun h k (s : list hkind) => Ok (ANone, h :: s)) (wire (Packet 4 9 [1; 2]) ++ [5]) [] = Ok (ANone, [5], [HSubmit]).
Proof. vm_compute. reflexivity. Qed.
Example C49_case_bad : OnTraffic P_CMPP true (fun h k (s : list hkind) => Ok (ANone, h :: s)) (be 4 5121 ++ be 4 4 ++ be 4 1) [] = Ok (AClose, be 4 5121 ++ be 4 4 ++ be 4 1, []).
Proof. vm_compute. reflexivity. Qed.
Print Assumptions C47_partial.
Print Assumptions C47_any_stream.
Print Assumptions C47_refuted.
Print Assumptions C48_exact_partial.
Print Assumptions C48_partial.
Print Assumptions C48_refuted.
Print Assumptions C49_illegal.
Print Assumptions C49_dispatch.
Print Assumptions C49_incomplete.
