(** * PropEnd: the client's code and the server's code joined by a connection.
    C69 (the client and the server agree on the outcome of a login). *)
From Verif Require Import Base SpecWire WireProofs SeqModel OptionsModel CmppModel CmppProofs CmppBuildProofs PropCmpp PropCmpp2 SgipModel SpecSgip SgipProofs PropSgip SmgpModel PropSmgp
  FrameModel SpecFrame PropFrame ClientModel RecvModel PropRecv ServerModel SpecServer ServerProofs PropLogins.

(** ** C69 *)
(** The client's copy [ac] of an account agrees with the server's copy [a]: same major version, same
    secret (as far as the digest of the login packet shows).  SGIP carries name and secret as text. *)
Definition matching (p : proto) (md5 : bytes -> bytes) (ac a : authconf) (ts : bytes) : Prop :=
  match p with
  | P_SGIP => ac_LoginName a = ac_ClientId ac /\ ac_SharedSecret a = ac_SharedSecret ac
  | P_CMPP => Z.land (ac_Version ac) 240 = Z.land (ac_Version a) 240 /\
              md5 (ac_ClientId ac ++ repeat 0 9 ++ ac_SharedSecret ac ++ ts) = md5 (ac_ClientId a ++ repeat 0 9 ++ ac_SharedSecret a ++ ts)
  | P_SMGP => Z.land (ac_Version ac) 240 = Z.land (ac_Version a) 240 /\
              md5 (ac_ClientId ac ++ repeat 0 7 ++ ac_SharedSecret ac ++ ts) = md5 (ac_ClientId a ++ repeat 0 7 ++ ac_SharedSecret a ++ ts)
  end.
(** The login has to succeed: the server knows the account, the copies agree and the account has
    fewer connections than it may have. *)
Definition entitled (p : proto) (md5 : bytes -> bytes) (find : bytes -> option authconf) (ac : authconf) (ts : bytes) (cnt : bytes -> Z) : Prop :=
  exists a, find (ac_ClientId ac) = Some a /\ matching p md5 ac a ts /\ cnt (ac_ClientId a) < ac_MaxConns a.
(** Names and secrets fill the fields of the login packet. *)
Definition fitting (p : proto) (ac : authconf) : Prop :=
  bytes_ok (ac_ClientId ac) /\ bytes_ok (ac_SharedSecret ac) /\ ac_wf ac /\
  match p with
  | P_CMPP => fits 6 (ac_ClientId ac)
  | P_SGIP => fits 16 (ac_ClientId ac) /\ fits 16 (ac_SharedSecret ac)
  | P_SMGP => zlen (ac_ClientId ac) = 8
  end.
Definition real_md5 (md5 : bytes -> bytes) : Prop := forall x, zlen (md5 x) = 16 /\ bytes_ok (md5 x).


Lemma render_bytes_ok l : Forall (fun f => match f with U _ _ => True | T _ s => bytes_ok s | R b => bytes_ok b end) l -> bytes_ok (render l).
Proof.
  induction 1 as [|f l H _ IH]; [constructor|]. unfold render in *. cbn [map concat]. apply Base.bytes_ok_app. split; [|exact IH].
  destruct f; cbn [render1]; [apply bytes_ok_be|apply bytes_ok_fit, H|exact H].
Qed.
(** The version of the login decides which of the CMPP answers is used. *)
Definition speaks (l : lreq) (v : Z) : Prop := match l with LCmpp c => cn_version c = v /\ 0 <= h_seq (cn_h c) < 2 ^ 32 | _ => True end.
Lemma packet_arrives p md5 ac sq q ts tsn : real_md5 md5 -> fitting p ac -> seq_wf q -> 0 <= tsn < 2 ^ 32 -> ten_digits ts tsn ->
  exists k l, login_packet md5 p ac sq q ts tsn = Ok (PropFrame.wire k) /\ legal p k /\ pk_cmd k = 1 /\ pk_body k <> [] /\ decode_login p k = Ok l /\
    login_key l = ac_ClientId ac /\ speaks l (ac_Version ac) /\
    (forall find, fst (login_check md5 l (find (ac_ClientId ac))) = 0 <-> exists a, find (ac_ClientId ac) = Some a /\ matching p md5 ac a ts).
Proof.
  intros M (B1 & B2 & W & F) Q T D. assert (M1 : forall x, zlen (md5 x) = 16) by (intros x; apply M).
  assert (US : 0 <= u32 sq < 2 ^ 32) by (unfold u32; apply Z.mod_pos_bound; lia).
  destruct p; cbn [login_packet matching].
  - destruct (C29_connect_wire md5 ac (u32 sq) ts tsn M1 W US T) as (E & L & _ & d & Ed & Hd & _ & Hk & Ha & Hv & Ht).
    set (body := render [SpecWire.T 6 (ac_ClientId ac); R _; U 1 _; U 4 tsn]) in *. assert (LB : zlen body = 27) by (rewrite zlen_app in L; change (zlen (render [U 4 39; U 4 1; U 4 (u32 sq)])) with 12 in L; lia).
    exists (Packet 1 (u32 sq) body), (LCmpp d). cbn [pk_cmd pk_seq pk_body decode_login]. rewrite E.
    split. { f_equal. unfold PropFrame.wire, wire_of. cbn [pk_cmd pk_seq pk_body]. rewrite LB. change (12 + 27) with 39. unfold render at 1. cbn [map concat render1]. rewrite app_nil_r, <- !app_assoc. reflexivity. }
    split. { split; [vm_compute; auto|]. split; [exact US|]. cbn [pk_body]. split; [|lia]. apply render_bytes_ok. repeat constructor; [exact B1|apply M]. }
    split; [reflexivity|]. split; [intros X; rewrite X in LB; discriminate LB|]. rewrite Ed. split; [reflexivity|]. cbn [login_key speaks login_check]. split; [apply Hk, F|].
    split; [split; [exact Hv|rewrite Hd; exact US]|]. intros find. destruct (Connect_Check md5 d (find (ac_ClientId ac))) as [z d'] eqn:C. cbn [fst].
    destruct (C30_check md5 d (find (ac_ClientId ac))) with (code := z) (c' := d') as [HC _]; [rewrite Ht; exact T|exact C|]. rewrite HC, Hv, Ht, Ha. split.
    + intros (a & ts' & E1 & E2 & E3 & E4). exists a. split; [exact E1|]. split; [exact E2|]. rewrite E4. rewrite (ten_digits_unique ts' tsn T E3), (ten_digits_unique ts tsn T D). reflexivity.
    + intros (a & E1 & E2 & E3). exists a, ts. auto.
  - destruct q as [[q0 q1] q2]. destruct Q as (Q1 & Q2 & Q3). destruct F as [F1 F2].
    destruct (C38_bind (NewBind ac 1 (q0, q1, q2))) as [E _]; [reflexivity|reflexivity|repeat split; tauto|unfold is_byte; cbn; lia|]. cbn [NewBind bd_h sh_seq bd_type bd_name bd_pwd] in E. fold (NewBind ac 1 (q0, q1, q2)) in E. rewrite E, head20_split.
    set (body := render ([U 4 q1; U 4 q2] ++ _)). assert (LB : zlen body = 49) by (unfold body; rewrite zlen_render; reflexivity).
    exists (Packet 1 q0 body), (LSgip (Bind (SHead 61 1 (q0, q1, q2)) 1 (ac_ClientId ac) (ac_SharedSecret ac))). cbn [pk_cmd pk_seq pk_body decode_login].
    split. { f_equal. unfold PropFrame.wire, wire_of. cbn [pk_cmd pk_seq pk_body]. rewrite LB. change (12 + 49) with 61. unfold render at 1, head. cbn [map concat render1]. rewrite app_nil_r, <- !app_assoc. reflexivity. }
    split. { split; [vm_compute; auto|]. split; [exact Q1|]. cbn [pk_body]. split; [|lia]. apply render_bytes_ok. repeat constructor; assumption. }
    split; [reflexivity|]. split; [intros X; rewrite X in LB; discriminate LB|].
    split. { unfold body. change [U 1 1; SpecWire.T 16 (ac_ClientId ac); SpecWire.T 16 (ac_SharedSecret ac); SpecWire.T 8 []] with (bind_body (NewBind ac 1 (q0, q1, q2))). rewrite Bind_Decode_ok by (auto; unfold is_byte; cbn; lia). cbn [NewBind bd_name bd_pwd bd_type bind]. rewrite !TrimStr_fits by auto. reflexivity. }
    split; [reflexivity|]. split; [exact I|]. intros find. cbn [login_check fst Bind_Check bd_name bd_pwd]. unfold Bind_Check. cbn [bd_name bd_pwd]. destruct (find (ac_ClientId ac)) as [a|].
    + destruct (beqb (ac_LoginName a) (ac_ClientId ac) && beqb (ac_SharedSecret a) (ac_SharedSecret ac)) eqn:B.
      * apply andb_true_iff in B as [X1 X2]. rewrite beqb_iff in X1, X2. split; [intros _; exists a; auto|reflexivity].
      * split; [discriminate|]. intros (a' & EE & X1 & X2). injection EE as <-. rewrite X1, X2 in B. rewrite !(proj2 (beqb_iff _ _) eq_refl) in B. discriminate B.
    + split; [discriminate|]. intros (a' & EE & _). discriminate EE.
  - destruct (C42_login_wire_partial md5 ac (u32 sq) ts tsn M1 (proj1 W) US T) as (E & d & Ed & Hd & Ha & Hm & Ht & Hv & _ & Hk); [lia|]. rewrite E in *.
    set (body := render [SpecWire.T 8 (ac_ClientId ac); R (md5 (ac_ClientId ac ++ repeat 0 7 ++ ac_SharedSecret ac ++ ts)); U 1 2; U 4 tsn; U 1 (ac_Version ac)]).
    assert (LB : zlen body = 30) by (unfold body; rewrite zlen_render; cbn [widths width]; rewrite M1; reflexivity).
    match goal with |- context [Ok (render ?x) = _] => change x with (head 42 1 (u32 sq) ++ [SpecWire.T 8 (ac_ClientId ac); R (md5 (ac_ClientId ac ++ repeat 0 7 ++ ac_SharedSecret ac ++ ts)); U 1 2; U 4 tsn; U 1 (ac_Version ac)]) in Ed |- * end.
    rewrite over_wire_ok in Ed. fold body in Ed. rewrite render_app. fold body.
    exists (Packet 1 (u32 sq) body), (LSmgp d). cbn [pk_cmd pk_seq pk_body decode_login].
    split. { f_equal. unfold PropFrame.wire, wire_of. cbn [pk_cmd pk_seq pk_body]. rewrite LB. change (12 + 30) with 42. unfold render at 1, head. cbn [map concat render1]. rewrite app_nil_r, <- !app_assoc. reflexivity. }
    split. { split; [vm_compute; auto|]. split; [exact US|]. cbn [pk_body]. split; [|lia]. apply render_bytes_ok. repeat constructor; [exact B1|apply M]. }
    split; [reflexivity|]. split; [intros X; rewrite X in LB; discriminate LB|]. rewrite Ed. split; [reflexivity|]. cbn [login_key speaks login_check]. split; [apply Hk, F|].
    split; [exact I|]. intros find. destruct (Login_Check md5 d (find (ac_ClientId ac))) as [z d'] eqn:C. cbn [fst].
    destruct (C42_check md5 d (find (ac_ClientId ac))) with (code := z) (l' := d') as [HC _]; [rewrite Ht; exact T|exact C|]. rewrite HC, Hv, Ht, Ha. split.
    + intros (a & ts' & E1 & E2 & E3 & E4). exists a. split; [exact E1|]. split; [exact E2|]. rewrite E4. rewrite (ten_digits_unique ts' tsn T E3), (ten_digits_unique ts tsn T D). reflexivity.
    + intros (a & E1 & E2 & E3). exists a, ts. auto.
Qed.
(** The server's answer, as the client reads it. *)
Lemma unbe_one x : unbe [x] = x.
Proof. unfold unbe. cbn. lia. Qed.
Lemma field_nth i (f : bytes) : Z.of_nat i < zlen f -> field i 1 f = nth i f 0.
Proof.
  intros L. unfold zlen in L. assert (L' : (i < length f)%nat) by lia. unfold field.
  replace (firstn 1 (skipn i f)) with [nth i f 0]; [apply unbe_one|]. clear L. revert f L'. induction i as [|i IH]; intros [|x f] L'; cbn [length] in L'; try lia; [reflexivity|]. cbn [skipn nth]. apply IH. lia.
Qed.
Lemma field_head a n (f g : bytes) : firstn 12 f = g -> (a + n <= 12)%nat -> field a n f = field a n g.
Proof.
  intros <- L. unfold field. f_equal. rewrite skipn_firstn_comm, firstn_firstn. f_equal. lia.
Qed.
Lemma answer_arrives p md5 k l ac v code : legal p k -> real_md5 md5 -> is_byte v -> decode_login p k = Ok l -> speaks l v -> 0 <= code < 256 ->
  exists b, ServerModel.login_answer md5 (snd (login_check md5 l ac)) code = Ok b /\ is_answer p (is_v3 v) b /\ seen_status p (is_v3 v) b = code.
Proof.
  intros (_ & LS & LB & _) M V D SP C. assert (M1 : forall x, zlen (md5 x) = 16) by (intros x; apply M).
  destruct (login_bytes p md5 k l ac code D LB C) as (b & E & R). exists b. split; [exact E|]. destruct p; cbn [login_reply] in R.
  - cbn [decode_login] in D. apply bind_ok in D as (x & D & EX). injection EX as <-. cbn [speaks] in SP. destruct SP as [SP1 SP2]. cbn [login_check] in E.
    assert (LC : exists z x', Connect_Check md5 x ac = (z, x') /\ cn_version x' = v /\ 0 <= h_seq (cn_h x') < 2 ^ 32).
    { destruct (Connect_Check md5 x ac) as [z x'] eqn:CC. exists z, x'. split; [reflexivity|]. unfold Connect_Check in CC. destruct ac; [|injection CC as <- <-; auto].
      destruct (negb _); [injection CC as <- <-; auto|]. destruct (beqb _ _); injection CC as <- <-; auto. }
    destruct LC as (z & x' & CC & V' & S'). rewrite CC in E. cbn [snd ServerModel.login_answer] in E.
    destruct (C31_connect_resp_wire md5 x' code M1) as (E' & L' & _); [rewrite V'; exact V|exact S'|exact C|]. rewrite V' in E', L'. rewrite E' in E. assert (EB : forall x y : bytes, Ok x = Ok y -> y = x) by congruence. apply EB in E. subst b.
    match type of L' with zlen (?h ++ ?b) = _ => set (hd := h) in *; set (bd := b) in * end. clear E'. destruct R as [R1 _]. unfold is_answer. rewrite L'. cbn [answer_len]. split.
    + split; [destruct (is_v3 v); reflexivity|]. rewrite L' in R1. split; (rewrite (field_head _ _ _ _ R1) by lia); destruct (is_v3 v); reflexivity.
    + cbn [seen_status]. assert (HS : skipn 12 (hd ++ bd) = bd) by reflexivity. assert (F : forall i, field (12 + i) 1 (hd ++ bd) = field i 1 bd) by (intros i; rewrite <- field_skip, HS; reflexivity).
      pose proof (F 3%nat) as F3. pose proof (F 0%nat) as F0. cbn [Nat.add] in F3, F0. unfold bytes in *.
      rewrite F3, F0. clear F F3 F0 HS. subst hd bd. destruct (is_v3 v); unfold render, field; cbn [map concat render1].
      * change (be 4 code) with (be 3 (code / 256) ++ [code mod 256]). rewrite <- app_assoc. rewrite skipn_app, length_be, skipn_all2 by (rewrite length_be; lia). cbn [Nat.sub skipn app firstn]. rewrite unbe_one. apply Z.mod_small. lia.
      * change (be 1 code) with [code mod 256]. cbn [skipn app firstn]. rewrite unbe_one. apply Z.mod_small. lia.
  - destruct R as (R1 & _ & R3 & R4). unfold is_answer. rewrite R3. cbn [answer_len seen_status answer_status]. split.
    + split; [reflexivity|]. split; (rewrite (field_head _ _ _ _ R1) by lia); reflexivity.
    + rewrite field_nth by lia. exact R4.
  - destruct R as (R1 & R3 & R4). unfold is_answer. rewrite R3. cbn [answer_len seen_status answer_status]. split.
    + split; [reflexivity|]. split; (rewrite (field_head _ _ _ _ R1) by lia); reflexivity.
    + unfold field. rewrite R4. apply unbe_be_small. change (256 ^ Z.of_nat 4) with 4294967296. lia.
Qed.
Lemma check_codes p md5 k l ac : legal p k -> decode_login p k = Ok l -> 0 <= fst (login_check md5 l ac) < 256 /\ (fst (login_check md5 l ac) = 0 -> ac <> None).
Proof.
  intros _ D. destruct p; cbn [decode_login] in D; apply bind_ok in D as (x & D & EX); injection EX as <-; cbn [login_check].
  - unfold Connect_Check. destruct ac; [|cbn; split; [lia|discriminate]]. destruct (negb _); [cbn; split; [lia|discriminate]|]. destruct (beqb _ _); cbn; (split; [lia|discriminate]).
  - unfold Bind_Check. destruct ac; [|cbn; split; [lia|discriminate]]. destruct (beqb _ _ && _); cbn; (split; [lia|discriminate]).
  - unfold Login_Check. destruct ac; [|cbn; split; [lia|discriminate]]. destruct (negb _); [cbn; split; [lia|discriminate]|]. destruct (beqb _ _); cbn; (split; [lia|discriminate]).
Qed.

(** Everything the server wrote. *)
Definition written (log : list obs) : list bytes := flat_map (fun x => match x with OOut _ b => [b] | _ => [] end) log.
(** The segments of a packet arrive one after the other; the answer of the pool is in the oracle. *)
Definition arrivals (segs : list (bytes * orc)) : list (event * orc) := map (fun x => (ERecv (fst x), snd x)) segs.

Lemma run_app pr : forall es fs c, run pr c (es ++ fs) = (c1 <- run pr c es ;; run pr c1 fs).
Proof. induction es as [|e es IH]; intros fs c; [reflexivity|]. cbn [app run]. destruct (step pr c e); cbn [bind]; auto. Qed.
Lemma recv_nothing pr : forall segs c, sc_open c = true -> sc_buf c = [] -> concat (map fst segs) = [] -> run pr c (arrivals segs) = Ok c.
Proof.
  induction segs as [|[g o] segs IH]; intros c O B E; [reflexivity|]. cbn [map fst concat] in E. apply app_eq_nil in E as [-> E]. unfold arrivals. cbn [map run fst snd]. unfold step at 1, on_recv. rewrite O, B. cbn [negb app].
  assert (T : OnTraffic (pr_p pr) (pr_drain pr) (act pr o) [] c = Ok (ANone, [], c)) by (unfold OnTraffic, DecodeAndCheckHeader, Peek; cbn; reflexivity).
  rewrite T. cbn [bind]. rewrite <- B. replace (with_buf c (sc_buf c)) with c by (destruct c; reflexivity). apply IH; auto.
Qed.
Lemma login_received pr k l : legal (pr_p pr) k -> pk_cmd k = 1 -> pk_body k <> [] -> decode_login (pr_p pr) k = Ok l ->
  forall segs now buf, Forall (fun x => o_acc (snd x) = true) segs -> buf ++ concat (map fst segs) = PropFrame.wire k -> concat (map fst segs) <> [] ->
  run pr (with_buf (opened now) buf) (arrivals segs) = Ok (spawn (note (opened now) (OGot k)) (JLogin k l)).
Proof.
  intros L K NB D. induction segs as [|[g o] segs IH]; intros now buf A E N; [cbn in N; congruence|].
  inversion A as [|x0 l0 A0 A1]; subst. cbn [snd] in A0. unfold arrivals. cbn [map run fst snd]. unfold step at 1, on_recv. change (sc_open (with_buf (opened now) buf)) with true. change (sc_buf (with_buf (opened now) buf)) with buf. cbn [negb].
  cbn [map concat fst] in E, N. rewrite app_assoc in E. destruct (concat (map fst segs)) as [|z rest] eqn:R.
  - rewrite app_nil_r in E. destruct (C49_dispatch (pr_p pr) (pr_drain pr) (act pr o) k [] (with_buf (opened now) buf) L) as [H _]; [right; repeat constructor; exact NB|].
    rewrite app_nil_r, <- E in H. rewrite (H HLogin) by (rewrite K; destruct (pr_p pr); left; reflexivity).
    unfold act. rewrite D, A0. cbn [bind]. apply (recv_nothing pr segs); auto.
  - rewrite (C49_incomplete (pr_p pr) (pr_drain pr) (act pr o) k (buf ++ g) (z :: rest) _ L E) by discriminate. cbn [bind].
    change (with_buf (with_buf (opened now) buf) (buf ++ g)) with (with_buf (opened now) (buf ++ g)). apply IH; [exact A1| |]; congruence.
Qed.
(** The whole exchange: the client's login packet [b] arrives at the server in any segments, the
    handler runs with [o2], the answer is written with [o3]. *)
Definition login_run (pr : params) (now : Z) (segs : list (bytes * orc)) (o2 o3 : orc) : res sconn :=
  run pr (opened now) (arrivals segs ++ [(ETask 0, o2); (EWrite, o3)]).
(** The stored accounts have a window size [make] accepts. *)
Definition windows_ok (find : bytes -> option authconf) : Prop := forall n a, find n = Some a -> 0 <= ac_MtWindowSize a.

(** If the answer is read in one piece, both sides agree: the server has a session exactly if the
    client has a usable one, and both have it exactly if the login is entitled; a refused client has
    no session and the server wishes to close the connection.  Exactly one packet is written. *)
Theorem C69_agree_partial : forall pr ac sq q ts tsn, real_md5 (pr_md5 pr) -> fitting (pr_p pr) ac -> seq_wf q -> 0 <= tsn < 2 ^ 32 -> ten_digits ts tsn -> (forall v, windows_ok (pr_find pr v)) ->
  exists b, login_packet (pr_md5 pr) (pr_p pr) ac sq q ts tsn = Ok b /\
  forall now segs o2 o3 later now', concat (map fst segs) = b -> Forall (fun x => o_acc (snd x) = true) segs ->
  exists c out, login_run pr now segs o2 o3 = Ok c /\ written (sc_log c) = [out] /\
    (entitled (pr_p pr) (pr_md5 pr) (pr_find pr (o_gen o2)) ac ts (o_cnt o2) /\ se_stat (sc_sess c) = StatLogin /\ sc_open c = true /\ sc_wish c = false /\
       (exists a, pr_find pr (o_gen o2) (ac_ClientId ac) = Some a /\ se_cid (sc_sess c) = ac_ClientId a /\ se_ver (sc_sess c) = ac_Version a) /\
       (exists s, NewSession (pr_p pr) ac true (Data out :: later) now' = Ok (MSess s later) /\ HealthCheck s = true)
     \/ ~ entitled (pr_p pr) (pr_md5 pr) (pr_find pr (o_gen o2)) ac ts (o_cnt o2) /\ se_stat (sc_sess c) = StatClosing /\ sc_wish c = true /\
       NewSession (pr_p pr) ac true (Data out :: later) now' = Ok MNil).
Proof.
  intros pr ac sq q ts tsn M F Q T D W. destruct (packet_arrives (pr_p pr) (pr_md5 pr) ac sq q ts tsn M F Q T D) as (k & l & E & L & K & NB & Dl & Key & SP & CH).
  exists (PropFrame.wire k). split; [exact E|]. intros now segs o2 o3 later now' ES A. specialize (CH (pr_find pr (o_gen o2))). specialize (W (o_gen o2)). unfold login_run. rewrite run_app.
  pose proof (login_received pr k l L K NB Dl segs now [] A ES) as RX. change (with_buf (opened now) []) with (opened now) in RX. rewrite RX; clear RX.
  2:{ rewrite ES. unfold PropFrame.wire, wire_of. intros X. apply (f_equal zlen) in X. rewrite zlen_app, zlen_be in X. pose proof (zlen_nonneg (be 4 (pk_cmd k) ++ be 4 (pk_seq k) ++ pk_body k)). change (zlen []) with 0 in X. lia. }
  cbn [bind run step]. set (cli := pr_find pr (o_gen o2) (ac_ClientId ac)) in *.
  destruct (check_codes (pr_p pr) (pr_md5 pr) k l cli L Dl) as [CR CN].
  set (code0 := fst (login_check (pr_md5 pr) l cli)) in *.
  set (code := if code0 =? 0 then match cli with Some a => if ac_MaxConns a <=? o_cnt o2 (ac_ClientId a) then over_code (pr_p pr) else code0 | None => code0 end else code0).
  assert (C : 0 <= code < 256). { unfold code. destruct (code0 =? 0); [|exact CR]. destruct cli as [a|]; [|exact CR]. destruct (_ <=? _); [destruct (pr_p pr); cbn; lia|exact CR]. }
  destruct (answer_arrives (pr_p pr) (pr_md5 pr) k l cli (ac_Version ac) code L M (proj1 (proj1 (proj2 (proj2 F)))) Dl SP C) as (out & EO & IA & ST).
  assert (ENT : code = 0 <-> entitled (pr_p pr) (pr_md5 pr) (pr_find pr (o_gen o2)) ac ts (o_cnt o2)).
  { unfold entitled. fold cli. split.
    - intros C0. destruct (Z.eq_dec code0 0) as [Z0|Z0].
      + apply CH in Z0 as (a & Ea & Ma). exists a. split; [exact Ea|]. split; [exact Ma|]. assert (Z1 : code0 = 0) by (apply CH; exists a; auto).
        unfold code in C0. rewrite Z1, Ea in C0. cbn [Z.eqb] in C0. destruct (ac_MaxConns a <=? o_cnt o2 (ac_ClientId a)) eqn:B; [|lia]. destruct (pr_p pr); cbn in C0; lia.
      + exfalso. apply Z0. unfold code in C0. destruct (code0 =? 0) eqn:B; lia.
    - intros (a & Ea & Ma & Ca). assert (Z1 : code0 = 0) by (apply CH; exists a; auto). unfold code. rewrite Z1, Ea. cbn [Z.eqb]. replace (ac_MaxConns a <=? o_cnt o2 (ac_ClientId a)) with false by lia. reflexivity. }
  set (c1 := spawn (note (opened now) (OGot k)) (JLogin k l)).
  assert (TK : on_task pr o2 0 c1 = with_queue (note (opened now) (OGot k)) [(KLogin k code, out, CbLogin k code cli)]).
  { unfold on_task, c1. cbn [spawn with_tasks sc_tasks note opened app nth_error plain_job]. unfold handle_login. rewrite Key. fold cli.
    unfold code0 in code. destruct (login_check (pr_md5 pr) l cli) as [z l1]. cbn [fst snd] in *. fold code. rewrite EO. cbn [bind]. reflexivity. }
  rewrite TK. unfold on_write. cbn [with_queue sc_open sc_queue note opened]. cbn [callback].
  destruct (Z.eq_dec code 0) as [C0|C0].
  - assert (EN := proj1 ENT C0). destruct EN as (a & Ea & Ma & Ca). fold cli in Ea.
    rewrite C0, Ea. cbn [Z.eqb]. unfold completeLogin. assert (WA : 0 <= ac_MtWindowSize a) by (eapply W; exact Ea). replace (ac_MtWindowSize a <? 0) with false by lia. cbn [bind].
    eexists. exists out. split; [reflexivity|]. split; [reflexivity|]. left. split; [exact (proj1 ENT C0)|].
    split; [reflexivity|]. split; [reflexivity|]. split; [reflexivity|]. split; [exists a; split; [reflexivity|split; reflexivity]|].
    destruct (C65_success (pr_p pr) ac (Data out :: later) later out now' IA) as (s & rest & ES' & HC & ->); [rewrite ST; exact C0|reflexivity|]. exists s. auto.
  - assert (NE : ~ entitled (pr_p pr) (pr_md5 pr) (pr_find pr (o_gen o2)) ac ts (o_cnt o2)) by (rewrite <- ENT; exact C0).
    assert (NS : NewSession (pr_p pr) ac true (Data out :: later) now' = Ok MNil).
    { apply (C65_rejected (pr_p pr) ac _ later out now' (proj1 IA)); [|reflexivity]. intros [_ X]. rewrite ST in X. exact (C0 X). }
    replace (code =? 0) with false by lia. destruct cli as [a|]; (eexists; exists out; split; [reflexivity|]; split; [reflexivity|]; right; auto).
Qed.
(** Read in two pieces, they disagree: whatever the split, the server has a logged-in session that
    the client does not use; the rest of the answer is left on the connection. *)
Theorem C69_refuted_split : forall pr ac sq q ts tsn, real_md5 (pr_md5 pr) -> fitting (pr_p pr) ac -> seq_wf q -> 0 <= tsn < 2 ^ 32 -> ten_digits ts tsn -> (forall v, windows_ok (pr_find pr v)) ->
  forall now o1 o2 o3 b, login_packet (pr_md5 pr) (pr_p pr) ac sq q ts tsn = Ok b -> o_acc o1 = true -> entitled (pr_p pr) (pr_md5 pr) (pr_find pr (o_gen o2)) ac ts (o_cnt o2) ->
  exists c out, login_run pr now [(b, o1)] o2 o3 = Ok c /\ written (sc_log c) = [out] /\ se_stat (sc_sess c) = StatLogin /\
    forall n now', (n < length out)%nat ->
      exists s, NewSession (pr_p pr) ac true [Data (firstn n out); Data (skipn n out)] now' = Ok (MSess s [Data (skipn n out)]) /\ HealthCheck s = false.
Proof.
  intros pr ac sq q ts tsn M F Q T D W now o1 o2 o3 b E A EN. destruct (C69_agree_partial pr ac sq q ts tsn M F Q T D W) as (b' & E' & H). assert (b = b') by congruence. subst b'.
  destruct (H now [(b, o1)] o2 o3 [] 0) as (c & out & R & WR & [X|[X _]]); [cbn; apply app_nil_r|repeat constructor; exact A| |contradiction].
  exists c, out. split; [exact R|]. split; [exact WR|]. destruct X as (_ & X1 & _ & _ & _ & s & NS & HC). split; [exact X1|]. intros n now' LN.
  destruct (C65_usable_partial _ _ _ _ _ _ _ NS HC) as (_ & b0 & (b1 & r & E1 & E2) & (L1 & _) & _).
  apply C65_short. assert (b1 = out) by congruence. subst b1. assert (LO : zlen b0 <= zlen out) by (rewrite E2; unfold zlen; rewrite firstn_length; lia).
  destruct (Z.leb_spec (zlen out) (answer_len (pr_p pr) (is_v3 (ac_Version ac)))) as [Y|Y]; [unfold zlen in *; rewrite firstn_length; lia|].
  (* the server writes exactly one answer *)
  exfalso. assert (NS2 := NS). unfold NewSession in NS2. cbn [negb] in NS2. assert (RL : resp_len (pr_p pr) (ac_Version ac) = answer_len (pr_p pr) (is_v3 (ac_Version ac))) by (unfold resp_len, answer_len; destruct (pr_p pr); reflexivity).
  rewrite RL in NS2. unfold Read in NS2. replace (zlen out <=? _) with false in NS2 by lia. destruct (negb _); [congruence|]. destruct (RecvModel.login_answer _ _ _) as [[|]| |]; cbn [bind] in NS2; congruence.
Qed.

(** An account "100001" with one connection; the login packet comes in two segments.  The client is
    accepted, the second connection is refused, and a wrong secret is refused, in each protocol. *)
Definition end_md5 (x : bytes) : bytes := map (fun z => z mod 256) (firstn 16 (rev x ++ repeat 1 16)).
Definition end_acc (id secret : bytes) : authconf := AuthConf [] id id secret 48 1 [49;48] [] 1 2 0 [] [] [] [] [] 0 1 16 100.
Definition end_id (p : proto) : bytes := match p with P_SMGP => [49;48;48;48;48;48;48;49] | _ => [49;48;48;48;48;49] end.
Definition end_pr (p : proto) : params := Params p true end_md5 (fun b => Some b) (fun _ n => if beqb n (end_id p) then Some (end_acc (end_id p) [115;51]) else None) true 1000000000000.
Definition end_orc (cnt : Z) : orc := Orc true true true 5 false false 1 2 3 (1, 2, 3) (repeat 0 10) (repeat 0 10) (repeat 48 10) (repeat 48 10) (repeat 48 10) 0 0 (fun _ => cnt) None 0.
Definition end_try (p : proto) (secret : bytes) (cnt : Z) : option (sstat * bool * bool) :=
  match login_packet end_md5 p (end_acc (end_id p) secret) 7 (1, 2, 3) [49;49;49;54;48;48;48;48;48;48] 1116000000 with
  | Ok b => match login_run (end_pr p) 0 [(firstn 20 b, end_orc 0); (skipn 20 b, end_orc 0)] (end_orc cnt) (end_orc 0) with
            | Ok c => Some (se_stat (sc_sess c), sc_wish c, match written (sc_log c) with [out] => match NewSession p (end_acc (end_id p) secret) true [Data out] 9 with Ok (MSess s _) => HealthCheck s | _ => false end | _ => false end)
            | _ => None end
  | _ => None end.
Lemma map_all_mod (l : bytes) : bytes_ok (map (fun z => z mod 256) l).
Proof. induction l; constructor; auto. unfold is_byte. apply Z.mod_pos_bound. lia. Qed.
Lemma end_md5_real : real_md5 end_md5.
Proof. intros x. unfold end_md5. split; [|apply map_all_mod]. unfold zlen. rewrite map_length, firstn_length, app_length, repeat_length. lia. Qed.
Example C69_case : forall p, real_md5 (pr_md5 (end_pr p)) /\ fitting p (end_acc (end_id p) [115;51]) /\ windows_ok (pr_find (end_pr p) 0) /\ ten_digits [49;49;49;54;48;48;48;48;48;48] 1116000000
  /\ entitled p end_md5 (pr_find (end_pr p) 0) (end_acc (end_id p) [115;51]) [49;49;49;54;48;48;48;48;48;48] (fun _ => 0)
  /\ end_try p [115;51] 0 = Some (StatLogin, false, true) /\ end_try p [115;51] 1 = Some (StatClosing, true, false) /\ end_try p [115;52] 0 = Some (StatClosing, true, false).
Proof.
  intros p. split; [apply end_md5_real|]. split; [|split; [|split; [|split; [|destruct p; vm_compute; auto]]]].
  - unfold fitting, ac_wf, bytes_ok, fits. destruct p; cbn [end_acc end_id ac_ClientId ac_SharedSecret ac_Version ac_NeedReport ac_DefaultMsgLevel ac_FeeUserType ac_FeeTerminalType];
      (split; [repeat constructor; unfold is_byte; lia|]); (split; [repeat constructor; unfold is_byte; lia|]); (split; [unfold is_byte; lia|]); cbn [In length zlen]; try (vm_compute; reflexivity); repeat split; try (cbn; lia); intros X; repeat (destruct X as [X|X]; try discriminate X); contradiction.
  - intros n a. cbn [end_pr pr_find]. destruct (beqb _ _); [intros E|discriminate]. injection E as <-. cbn. lia.
  - split; [reflexivity|]. split; [|reflexivity]. repeat (apply Forall_cons; [unfold SpecText.is_digit; lia|]). apply Forall_nil.
  - exists (end_acc (end_id p) [115;51]). split; [destruct p; reflexivity|]. split; [destruct p; split; reflexivity|cbn; lia].
Qed.
Print Assumptions C69_agree_partial.
Print Assumptions C69_refuted_split.
