(** * PropTrace: finding a message in the log by its delivery report (C134).
    Code: /repo/codec/cmpp/report.go:20-22, /repo/codec/smgp/report.go:67-70 (the texts of reports),
    /repo/codec/cmpp/submit.go:311-319, /repo/codec/cmpp/delivery.go:186-209, /repo/codec/smgp/submit.go:277-285,
    /repo/codec/smgp/deliver.go:173-200, /repo/codec/sgip/header.go:42-49, /repo/codec/sgip/report.go:83-93 (Log).
    Models: LogModel.v, SeqModel.v. *)
From Coq Require Import String.
From Verif Require Import Base UtilsModel SpecText UtilsProofs CmppModel SgipModel SmgpModel SeqModel SeqProofs PropSeq LogModel PropLog PropTlvText.
From Verif Require PropGen PropCmpp.
Import LogModel.
Local Open Scope string_scope.
Local Open Scope list_scope.
Local Open Scope Z_scope.

(** ** Specification *)
Definition text_field (key : string) (fs : list field) (t : bytes) : Prop := value_of key fs = Some (FS t).
(** The words of a text: what stands between its spaces. *)
Fixpoint words_from (cur t : bytes) : list bytes :=
  match t with
  | [] => match cur with [] => [] | _ => [cur] end
  | c :: r => if c =? 32 then match cur with [] => words_from [] r | _ => cur :: words_from [] r end else words_from (cur ++ [c]) r
  end.
Definition words (t : bytes) : list bytes := words_from [] t.
(** A word: not empty, without spaces. *)
Definition word (w : bytes) : Prop := w <> [] /\ ~ In 32 w.
(** A text read from [n] octets of a packet: those before the first zero. *)
Definition read_from (f : bytes) (lo n : nat) (t : bytes) : Prop :=
  let x := firstn n (skipn lo f) in ~ In 0 t /\ (t = x \/ exists r, x = t ++ 0 :: r).

(** ** Lemmas *)
Lemma words_word r : forall w cur, ~ In 32 w -> cur ++ w <> [] -> words_from cur (w ++ 32 :: r) = (cur ++ w) :: words_from [] r.
Proof.
  induction w as [|c w IH]; intros cur N E.
  - rewrite app_nil_r in E. cbn. rewrite app_nil_r. destruct cur; [congruence|reflexivity].
  - cbn [app words_from]. replace (c =? 32) with false by (symmetry; apply Z.eqb_neq; intros ->; apply N; left; reflexivity).
    rewrite IH; [|intros I; apply N; right; exact I|destruct cur; discriminate]. rewrite <- app_assoc. reflexivity.
Qed.
Lemma words_last : forall w cur, ~ In 32 w -> cur ++ w <> [] -> words_from cur w = [cur ++ w].
Proof.
  induction w as [|c w IH]; intros cur N E.
  - rewrite app_nil_r in *. cbn. destruct cur; [congruence|reflexivity].
  - cbn [words_from]. replace (c =? 32) with false by (symmetry; apply Z.eqb_neq; intros ->; apply N; left; reflexivity).
    rewrite IH; [|intros I; apply N; right; exact I|destruct cur; discriminate]. rewrite <- app_assoc. reflexivity.
Qed.
Lemma words_spaces r : forall k, words_from [] (repeat 32 k ++ r) = words_from [] r.
Proof. induction k as [|k IH]; [reflexivity|]. cbn. exact IH. Qed.
Lemma words_pad w s r : word s -> words_from [] (pad_right w s ++ 32 :: r) = s :: words_from [] r.
Proof.
  intros [E N]. unfold pad_right. rewrite <- app_assoc. destruct (Z.to_nat (w - zlen (runes s))) as [|k]; cbn [repeat app].
  - apply words_word; assumption.
  - rewrite words_word by assumption. cbn [app]. f_equal. rewrite words_spaces. reflexivity.
Qed.
Lemma hex_word k n : 0 <= n < 16 ^ Z.of_nat k -> (0 < k)%nat -> word (hexnum_fuel k n).
Proof.
  intros H K. pose proof (hexnum_value k n H K) as V. split.
  - destruct k; [lia|]. cbn [hexnum_fuel]. destruct (n <? 16); [discriminate|]. destruct (hexnum_fuel k (n / 16)); discriminate.
  - eapply not_in_class; [eapply hex_chars; exact V|]. cbn. lia.
Qed.
(** Digits in a fixed number of places are the digits without leading zeros after zeros. *)
Lemma hex_at_0 n : 0 <= n -> hex_at n 0 = hexd (n mod 16).
Proof.
  intros H. unfold hex_at. rewrite Z.shiftr_0_r. change 15 with (Z.ones 4). rewrite Z.land_ones by lia. change (2 ^ 4) with 16. pose proof (Z.mod_pos_bound n 16 ltac:(lia)).
  assert (X : forall d, 0 <= d < 16 -> nth (Z.to_nat d) NumTable 0 = hexd d).
  { intros d D. assert (C : d = 0 \/ d = 1 \/ d = 2 \/ d = 3 \/ d = 4 \/ d = 5 \/ d = 6 \/ d = 7 \/ d = 8 \/ d = 9 \/ d = 10 \/ d = 11 \/ d = 12 \/ d = 13 \/ d = 14 \/ d = 15) by lia. intuition (subst; reflexivity). }
  apply X. lia.
Qed.
Lemma hex_at_up n j : hex_at n (4 * Z.of_nat (S j)) = hex_at (n / 16) (4 * Z.of_nat j).
Proof. unfold hex_at. do 3 f_equal. change 16 with (2 ^ 4). rewrite <- Z.shiftr_div_pow2, Z.shiftr_shiftr by lia. f_equal. lia. Qed.
Definition places (n : Z) (k : nat) : bytes := map (hex_at n) (map (fun j => 4 * Z.of_nat j) (rev (seq 0 k))).
Lemma places_S n k : 0 <= n -> places n (S k) = places (n / 16) k ++ [hexd (n mod 16)].
Proof.
  intros H. unfold places. cbn [seq rev]. rewrite !map_app. cbn [map]. change (4 * Z.of_nat 0) with 0. rewrite hex_at_0 by exact H. f_equal.
  rewrite <- seq_shift, <- map_rev, !map_map. apply map_ext. intros j. apply hex_at_up.
Qed.
Lemma places_0 k : places 0 k = repeat 48 k.
Proof.
  induction k as [|k IH]; [reflexivity|]. rewrite places_S by lia. change (0 / 16) with 0. rewrite IH. change [hexd (0 mod 16)] with (repeat 48 1). rewrite <- repeat_app. f_equal. lia.
Qed.
Lemma hexnum_len : forall k n, (length (hexnum_fuel k n) <= k)%nat.
Proof. induction k as [|k IH]; intros n; [cbn; lia|]. cbn [hexnum_fuel]. destruct (n <? 16); [cbn; lia|]. rewrite app_length. cbn [length]. specialize (IH (n / 16)). lia. Qed.
Lemma places_zeros : forall k n, 0 <= n < 16 ^ Z.of_nat k -> places n k = repeat 48 (k - length (hexnum_fuel k n)) ++ hexnum_fuel k n.
Proof.
  induction k as [|k IH]; intros n H; [reflexivity|]. rewrite places_S by lia. cbn [hexnum_fuel]. destruct (Z.ltb_spec n 16).
  - rewrite Z.div_small, places_0, Z.mod_small by lia. cbn [length]. do 2 f_equal. lia.
  - rewrite Nat2Z.inj_succ, Z.pow_succ_r in H by lia. rewrite IH by (split; [apply Z.div_pos; lia|apply Z.div_lt_upper_bound; lia]).
    rewrite app_length. cbn [length]. rewrite <- app_assoc. do 2 f_equal. lia.
Qed.
Lemma short k : forall j n, (0 < j)%nat -> 0 <= n < 16 ^ Z.of_nat j -> (length (hexnum_fuel k n) <= j)%nat.
Proof.
  induction k as [|k IH]; intros j n J H; [cbn; lia|]. cbn [hexnum_fuel]. destruct (Z.ltb_spec n 16); [cbn; lia|]. destruct j as [|[|j]]; [lia|cbn in H; lia|].
  rewrite Nat2Z.inj_succ, Z.pow_succ_r in H by lia. rewrite app_length. cbn [length]. enough ((length (hexnum_fuel k (n / 16)) <= S j)%nat) by lia.
  apply IH; [lia|]. split; [apply Z.div_pos; lia|apply Z.div_lt_upper_bound; lia].
Qed.
Lemma full : forall k n, 16 ^ Z.of_nat k <= n -> length (hexnum_fuel (S k) n) = S k.
Proof.
  induction k as [|k IH]; intros n H.
  - cbn [hexnum_fuel]. destruct (n <? 16); reflexivity.
  - rewrite Nat2Z.inj_succ, Z.pow_succ_r in H by lia. assert (0 < 16 ^ Z.of_nat k) by (apply Z.pow_pos_nonneg; lia).
    change (hexnum_fuel (S (S k)) n) with (if n <? 16 then [hexd n] else hexnum_fuel (S k) (n / 16) ++ [hexd (n mod 16)]).
    replace (n <? 16) with false by lia. rewrite app_length, IH by (apply Z.div_le_lower_bound; lia). cbn [length]. lia.
Qed.
Lemma answer_text n : 0 <= n < 2 ^ 64 -> Uint64HexString n = repeat 48 (16 - length (hexnum n)) ++ hexnum n.
Proof. intros H. change (Uint64HexString n) with (places n 16). apply (places_zeros 16). exact H. Qed.
Lemma answer_same n : 0 <= n < 2 ^ 64 -> (hexnum n = Uint64HexString n <-> 2 ^ 60 <= n).
Proof.
  intros H. rewrite (answer_text n H). pose proof (hexnum_len 16 n) as L. fold (hexnum n) in L. split.
  - intros E. destruct (Z.le_gt_cases (2 ^ 60) n) as [|S]; [assumption|]. exfalso. pose proof (short 16 15 n ltac:(lia)) as B. change (16 ^ Z.of_nat 15) with (2 ^ 60) in B. specialize (B ltac:(lia)).
    apply (f_equal (@length Z)) in E. rewrite app_length, repeat_length in E. unfold hexnum in *. lia.
  - intros G. pose proof (full 15 n) as F. change (16 ^ Z.of_nat 15) with (2 ^ 60) in F. specialize (F G). unfold hexnum. rewrite F. reflexivity.
Qed.
Lemma seq12_triple a b c : 0 <= a < 2 ^ 32 -> 0 <= b < 2 ^ 32 -> 0 <= c < 2 ^ 32 -> PropGen.triple (seq12 a b c) a b c.
Proof.
  intros A B C. destruct (TimeStamp2Str_spec a A) as (L1 & D1 & V1). destruct (TimeStamp2Str_spec b B) as (L2 & D2 & V2). destruct (Uint32HexString_value c C) as [V3 L3].
  exists (TimeStamp2Str a), (TimeStamp2Str b), (Uint32HexString c). repeat (split; [first [reflexivity|assumption]|]). exact V3.
Qed.

(** ** CMPP *)
(** The text of a report: six words, the first one the identifier of the message. *)
Theorem C134_report : forall d r fs, dl_registeredDelivery d = 1 -> dl_report d = Some r -> 0 <= rp_msgId r < 2 ^ 64 -> 0 <= rp_smscSequence r < 2 ^ 32 ->
  word (rp_stat r) -> word (rp_submitTime r) -> word (rp_doneTime r) -> word (rp_destTerminalId r) -> Delivery_Log d = Ok fs ->
  exists t w n, text_field "msgContent" fs t /\ words t = [w; rp_stat r; rp_submitTime r; rp_doneTime r; rp_destTerminalId r; n] /\
    hex_value w = Some (rp_msgId r) /\ Forall is_digit n /\ dec_value n = rp_smscSequence r.
Proof.
  intros d r fs R P I Q W1 W2 W3 W4 E. unfold Delivery_Log in E. rewrite R, P in E. cbn [Z.eqb Pos.eqb bind] in E. injection E as <-. exists (creport_String r), (hexnum (rp_msgId r)), (FormatInt (rp_smscSequence r)).
  split; [reflexivity|]. destruct (dec_fuel_spec 20 (rp_smscSequence r)) as (D & F & L); [assert (2 ^ 32 < 10 ^ Z.of_nat 20) by reflexivity; lia|lia|].
  assert (X : FormatInt (rp_smscSequence r) = dec_fuel 20 (rp_smscSequence r)) by (unfold FormatInt; replace (rp_smscSequence r <? 0) with false by lia; reflexivity).
  split; [|rewrite X; split; [apply (hexnum_value 16); [exact I|lia]|split; [exact F|exact D]]].
  destruct (hex_word 16 (rp_msgId r) I ltac:(lia)) as [H0 H1]. unfold words, creport_String. cbn [app]. unfold hexnum. rewrite words_word by assumption. cbn [app]. rewrite !words_pad by assumption. do 5 f_equal.
  rewrite X. apply words_last.
  - eapply not_in_class; [exact F|]. unfold is_digit. lia.
  - cbn [app]. intros Z0. cbn [dec_fuel] in Z0. destruct (rp_smscSequence r <? 10); [discriminate|]. apply app_eq_nil in Z0 as [_ Z0]. discriminate.
Qed.
(** The first word of a report and the identifier in the line of an answer: the message is the same exactly when they
    agree up to zeros in front; they are the same text exactly for a message whose identifier has sixteen digits. *)
Theorem C134_cmpp_partial : forall names a d r fs, 0 <= rs_msgId a < 2 ^ 64 -> dl_registeredDelivery d = 1 -> dl_report d = Some r -> 0 <= rp_msgId r < 2 ^ 64 -> Delivery_Log d = Ok fs ->
  exists x t w ws, text_field "msgId" (cresp_Log names a) x /\ text_field "msgContent" fs t /\ words t = w :: ws /\
    (rp_msgId r = rs_msgId a <-> exists k, x = repeat 48 k ++ w) /\ (w = x <-> rp_msgId r = rs_msgId a /\ 2 ^ 60 <= rs_msgId a).
Proof.
  intros names a d r fs A R P I E. unfold Delivery_Log in E. rewrite R, P in E. cbn [Z.eqb Pos.eqb bind] in E. injection E as <-.
  destruct (hex_word 16 (rp_msgId r) I ltac:(lia)) as [H0 H1]. exists (Uint64HexString (rs_msgId a)), (creport_String r), (hexnum (rp_msgId r)). eexists.
  split; [reflexivity|]. split; [reflexivity|]. split; [unfold words, creport_String; cbn [app]; unfold hexnum; rewrite words_word by assumption; reflexivity|].
  assert (V : forall k t, hex_value (repeat 48 k ++ t) = hex_value t) by (induction k as [|k IH]; intros t; [reflexivity|exact (IH t)]).
  pose proof (proj1 (Uint64HexString_value _ A)) as VA. pose proof (hexnum_value 16 (rp_msgId r) I ltac:(lia)) as VR. fold (hexnum (rp_msgId r)) in VR. split; split.
  - intros ->. eexists. apply answer_text. exact A.
  - intros (k & X). rewrite X, V, VR in VA. congruence.
  - intros X. assert (S : rp_msgId r = rs_msgId a) by (rewrite X in VR; congruence). split; [exact S|]. rewrite S in X. apply answer_same in X; assumption.
  - intros [S G]. rewrite S. apply answer_same; assumption.
Qed.
(** So the reports the server makes for the messages it took: until 2^38 milliseconds after 2020 (in 2028) no identifier its
    generator hands out is found, as the line of the answer shows it, in the line of the report. *)
Theorem C134_refuted_found : forall names s q clk q' v rest a nseq nid nrep sub done fs, 0 <= sf_dc q < 8 -> 0 <= sf_worker q < 128 ->
  (forall x, In x clk -> epoch2020 <= x < epoch2020 + 2 ^ 38) -> sf_next q clk = Some (q', v, rest) -> rs_msgId a = v ->
  Delivery_Log (ToDeliveryReport s v nseq nid nrep sub done) = Ok fs ->
  exists x t w ws, text_field "msgId" (cresp_Log names a) x /\ text_field "msgContent" fs t /\ words t = w :: ws /\ hex_value w = hex_value x /\ w <> x.
Proof.
  intros names s q clk q' v rest a nseq nid nrep sub done fs Hd Hw Hc E V L.
  assert (B : 0 <= v < 2 ^ 60).
  { destruct (C11_every_call q clk q' v rest E) as (_ & _ & Q & u & now & C & K & _). assert (N : epoch2020 <= now < epoch2020 + 2 ^ 38) by (apply Hc; rewrite C; apply in_or_app; right; left; reflexivity).
    assert (M : 2 ^ 38 < max41) by reflexivity. destruct K as [_ ->]; [lia|]. rewrite sf_pack_val by lia. lia. }
  destruct (C134_cmpp_partial names a (ToDeliveryReport s v nseq nid nrep sub done) (NewReport v (sb_destTerminalId s) sub done nrep) fs) as (x & t & w & ws & X & T & W & S & G); [lia|reflexivity|reflexivity|cbn; lia|exact L|].
  exists x, t, w, ws. split; [exact X|]. split; [exact T|]. split; [exact W|]. split.
  - destruct (proj1 S) as (k & ->); [cbn; congruence|]. clear. induction k as [|k IH]; [reflexivity|exact IH].
  - intros Y. apply G in Y as [_ Y]. lia.
Qed.

(** ** SMGP *)
Theorem C134_smgp : forall names a d r fs, bytes_ok (mr_msgId a) -> bytes_ok (mp_id r) -> md_isReport d = 1 -> md_report d = Some r -> MDeliver_Log d = Ok fs ->
  exists x t w ws, text_field "msgId" (mresp_Log names a) x /\ text_field "msgContent" fs t /\ words t = (105 :: 100 :: 58 :: w) :: ws /\
    hex_read w = Some (mp_id r) /\ (w = x <-> mp_id r = mr_msgId a).
Proof.
  intros names a d r fs A B R P E. unfold MDeliver_Log in E. rewrite R, P in E. cbn [Z.eqb Pos.eqb bind] in E. injection E as <-.
  pose proof (hex_read_bytes _ A) as VA. pose proof (hex_read_bytes _ B) as VB. exists (hex_bytes (mr_msgId a)), (mreport_String r), (hex_bytes (mp_id r)). eexists.
  split; [reflexivity|]. split; [reflexivity|]. split; [|split; [exact VB|split; intros X; [rewrite X in VB; congruence|rewrite X; reflexivity]]].
  unfold words, mreport_String, L_sub. rewrite app_assoc. cbn [app]. rewrite words_word; [reflexivity| |discriminate].
  intros [I|[I|[I|I]]]; [discriminate|discriminate|discriminate|]. revert I. eapply not_in_class; [eapply read_chars; [reflexivity|exact VB]|]. cbn. lia.
Qed.

(** ** SGIP *)
(** The line of a report names the submit by its sequence, in the form the line of the submit has it. *)
Theorem C134_sgip : forall names s r a b c x y z more fs gs, sh_seq (ss_h s) = (a, b, c) -> st_MtSequence r = x :: y :: z :: more ->
  0 <= a < 2 ^ 32 -> 0 <= b < 2 ^ 32 -> 0 <= c < 2 ^ 32 -> 0 <= x < 2 ^ 32 -> 0 <= y < 2 ^ 32 -> 0 <= z < 2 ^ 32 -> SSubmit_Log s = Ok fs -> SReport_Log names r = Ok gs ->
  exists t u n m, text_field "seq_12" fs t /\ text_field "mt_seq_12" gs u /\ PropGen.triple t a b c /\ PropGen.triple u x y z /\ (t = u <-> (a, b, c) = (x, y, z)) /\
    value_of "seq" fs = Some (FN n) /\ value_of "mt_seq" gs = Some (FN m) /\ (n = m <-> (b, c) = (y, z)).
Proof.
  intros names s r a b c x y z more fs gs S M A B C X Y Z0 E G. unfold SSubmit_Log in E. rewrite shown_is in E. cbn [bind] in E. unfold shead_Log in E. rewrite S in E. injection E as <-.
  unfold SReport_Log in G. rewrite M in G. assert (G' : forall t, at_ (x :: y :: z :: t) 0 = Ok x /\ at_ (x :: y :: z :: t) 1 = Ok y /\ at_ (x :: y :: z :: t) 2 = Ok z).
  { intros t. unfold at_, zlen. cbn [length]. repeat split. all: match goal with |- context [if ?q then _ else _] => replace q with true by lia end; reflexivity. }
  destruct (G' more) as (G0 & G1 & G2). rewrite G0, G1, G2 in G. cbn [bind] in G. injection G as <-.
  exists (seq12 a b c), (seq12 x y z), (Z.lor (Z.shiftl b 32) c), (Z.lor (Z.shiftl y 32) z). split; [reflexivity|].
  unfold shead_Log. destruct (sh_seq (st_h r)) as [[? ?] ?]. pose proof (seq12_triple a b c A B C) as T. pose proof (seq12_triple x y z X Y Z0) as U.
  split; [reflexivity|]. split; [exact T|]. split; [exact U|]. split; [|split; [reflexivity|split; [reflexivity|]]].
  - split; intros H; [|injection H as -> -> ->; reflexivity]. rewrite H in T. destruct (PropGen.triple_same _ _ _ _ _ _ _ T U) as (-> & -> & ->). reflexivity.
  - rewrite !Z.shiftl_mul_pow2, !lor_disjoint by lia. split; intros H; [|injection H as -> ->; reflexivity]. f_equal; lia.
Qed.

(** ** The two numbers of a delivery *)
Lemma read_slice f lo hi x : slice f lo hi = Ok x -> read_from f (Z.to_nat lo) (Z.to_nat (hi - lo)) (TrimStr x).
Proof. intros E. apply ServerProofs.slice_val in E. subst x. split; [apply TrimStr_out|apply TrimStr_prefix]. Qed.
(** The line of a delivery shows the number it came from and the number it was sent to, as they stand in the packet. *)
Theorem C134_numbers :
  (forall gbd ver seq f d fs, MDeliver_Decode gbd ver seq f = Ok d -> MDeliver_Log d = Ok fs ->
    exists t u, text_field "srcTermID" fs t /\ read_from f 26 21 t /\ text_field "destTermID" fs u /\ read_from f 47 21 u) /\
  (forall cid f d fs, SDeliver_Decode cid f = Ok d -> SDeliver_Log d = Ok fs ->
    exists t u, text_field "userNumber" fs t /\ read_from f 8 21 t /\ text_field "spNumber" fs u /\ read_from f 29 21 u) /\
  (forall ver seq f d fs, Delivery_Decode ver seq f = Ok d -> Delivery_Log d = Ok fs ->
    exists t, text_field "srcTerminalId" fs t /\ read_from f 42 (if is_v3 ver then 32 else 21) t).
Proof.
  split; [|split].
  - intros gbd ver seq f d fs E L. unfold MDeliver_Decode in E. do 4 (apply bind_ok in E as (? & _ & E)). apply bind_ok in E as (s & S & E). apply bind_ok in E as (t & T & E). apply bind_ok in E as (? & _ & E).
    apply bind_ok in E as ([? ?] & _ & E). injection E as <-. unfold MDeliver_Log in L. apply bind_ok in L as (m & _ & L). injection L as <-. exists (TrimStr s), (TrimStr t).
    split; [reflexivity|]. split; [exact (read_slice _ _ _ _ S)|]. split; [reflexivity|exact (read_slice _ _ _ _ T)].
  - intros cid f d fs E L. unfold SDeliver_Decode in E. do 2 (apply bind_ok in E as (? & _ & E)). apply bind_ok in E as (s & S & E). apply bind_ok in E as (t & T & E). do 5 (apply bind_ok in E as (? & _ & E)).
    injection E as <-. unfold SDeliver_Log in L. apply bind_ok in L as (m & _ & L). injection L as <-. exists (TrimStr s), (TrimStr t).
    split; [reflexivity|]. split; [exact (read_slice _ _ _ _ S)|]. split; [reflexivity|exact (read_slice _ _ _ _ T)].
  - intros ver seq f d fs E L. unfold Delivery_Decode in E. cbv zeta in E. do 6 (apply bind_ok in E as (? & _ & E)). apply bind_ok in E as ([[s ty] i] & S & E).
    do 3 (apply bind_ok in E as (? & _ & E)). apply bind_ok in E as ([? ?] & _ & E). apply bind_ok in E as (? & _ & E). injection E as <-. unfold Delivery_Log in L. apply bind_ok in L as (m & _ & L). injection L as <-.
    exists (TrimStr s). split; [reflexivity|]. destruct (is_v3 ver).
    + apply bind_ok in S as (s0 & S & S2). apply bind_ok in S2 as (? & _ & S2). assert (s = s0) as -> by congruence. exact (read_slice _ _ _ _ S).
    + apply bind_ok in S as (s0 & S & S2). assert (s = s0) as -> by congruence. exact (read_slice _ _ _ _ S).
Qed.
(** Not so the number a CMPP delivery was sent to: the field for it shows the ten octets of the service. *)
Theorem C134_refuted_number : forall ver seq f d fs, Delivery_Decode ver seq f = Ok d -> Delivery_Log d = Ok fs -> exists t, text_field "destId" fs t /\ read_from f 29 10 t.
Proof.
  intros ver seq f d fs E L. unfold Delivery_Decode in E. cbv zeta in E. do 2 (apply bind_ok in E as (? & _ & E)). apply bind_ok in E as (t & T & E). do 3 (apply bind_ok in E as (? & _ & E)). apply bind_ok in E as ([[s ty] i] & _ & E).
  do 3 (apply bind_ok in E as (? & _ & E)). apply bind_ok in E as ([? ?] & _ & E). apply bind_ok in E as (? & _ & E). injection E as <-. unfold Delivery_Log in L. apply bind_ok in L as (m & _ & L). injection L as <-.
  exists (TrimStr t). split; [reflexivity|exact (read_slice _ _ _ _ T)].
Qed.
Print Assumptions C134_report.
Print Assumptions C134_cmpp_partial.
Print Assumptions C134_refuted_found.
Print Assumptions C134_smgp.
Print Assumptions C134_sgip.
Print Assumptions C134_numbers.
Print Assumptions C134_refuted_number.

(** ** Cases *)
Definition rep0 := Delivery (CHead 0 0 0) 1 [57] [] 0 0 0 [49] 0 1 60 [] (Some (CReport 93079994885513215 [68;69;76] [50] [51] [49;51;56] 77)) [] 32.
Example C134_case_cmpp : exists fs t, Delivery_Log rep0 = Ok fs /\ text_field "msgContent" fs t /\
  words t = [[49;52;97;97;102;99;51;49;101;100;56;57;102;102;102]; [68;69;76]; [50]; [51]; [49;51;56]; [55;55]] /\
  text_field "msgId" (cresp_Log (fun _ => []) (CResp (CHead 0 0 0) 93079994885513215 0 32)) [48;49;52;97;97;102;99;51;49;101;100;56;57;102;102;102] /\
  (exists q' rest, sf_next (Sf 1600000000123 9 3 4094) [1600000000123] = Some (q', 93079994885513215, rest)).
Proof. eexists _, _. split; [reflexivity|]. split; [reflexivity|]. split; [vm_compute; reflexivity|]. split; [vm_compute; reflexivity|]. eexists _, _. vm_compute. reflexivity. Qed.
Definition repm := MDeliver (CHead 0 0 0) [1] 1 0 [50] [49] [57] 115 [] [] (Some (smgp_NewReport [16; 32; 51] 5 [50] [51])) [] 48.
Example C134_case_smgp : exists fs t ws, MDeliver_Log repm = Ok fs /\ text_field "msgContent" fs t /\ words t = [105;100;58;49;48;50;48;51;51] :: ws /\
  text_field "msgId" (mresp_Log (fun _ => []) (MResp (CHead 0 0 0) [16; 32; 51] 0 48)) [49;48;50;48;51;51].
Proof. eexists _, _, _. split; [reflexivity|]. split; [reflexivity|]. split; [vm_compute; reflexivity|]. reflexivity. Qed.
Example C134_case_sgip : exists gs t, SReport_Log (fun _ => []) (sgip_NewReport [49] [3000000001; 1116225301; 171] 0 0 (1, 2, 3)) = Ok gs /\ text_field "mt_seq_12" gs t /\
  t = [51;48;48;48;48;48;48;48;48;49; 49;49;49;54;50;50;53;51;48;49; 48;48;48;48;48;48;97;98] /\ text_field "seq_12" (shead_Log (SHead 0 3 (3000000001, 1116225301, 171))) t.
Proof. eexists _, _. split; [vm_compute; reflexivity|]. split; [vm_compute; reflexivity|]. split; vm_compute; reflexivity. Qed.
(** A delivery to 106 of the service S, as an SMGP packet shows it and as a CMPP packet does. *)
Example C134_case_numbers :
  (exists d fs, MDeliver_Decode Some 48 7 (repeat 1 10 ++ [0; 0] ++ repeat 50 14 ++ [49;51;56] ++ repeat 0 18 ++ [49;48;54] ++ repeat 0 18 ++ [1; 65] ++ repeat 0 8) = Ok d /\ MDeliver_Log d = Ok fs /\
    text_field "srcTermID" fs [49;51;56] /\ text_field "destTermID" fs [49;48;54]) /\
  (exists d fs, Delivery_Decode 32 7 (repeat 1 8 ++ [49;48;54] ++ repeat 0 18 ++ [83] ++ repeat 0 9 ++ [0; 0; 0] ++ [49;51;56] ++ repeat 0 18 ++ [0; 1; 65] ++ repeat 0 8) = Ok d /\ Delivery_Log d = Ok fs /\
    text_field "srcTerminalId" fs [49;51;56] /\ text_field "destId" fs [83]).
Proof. split; eexists _, _; (split; [vm_compute; reflexivity|]); (split; [vm_compute; reflexivity|]); split; vm_compute; reflexivity. Qed.
