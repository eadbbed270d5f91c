(** * PropGen: what the text of an identifier generator shows (C131).
    Code: the String methods of the generators: /repo/utils/snowflake/snowflake.go:64-66,
    /repo/utils/snowflake32/snowflake32.go:69-71, /repo/utils/cycle_sequence.go:39-41 and
    /repo/codec/sgip/sequence.go:53-55 (and CurVal, lines 45-51, which reads the same three fields). *)
From Verif Require Import Base UtilsModel SpecText UtilsProofs SeqModel SeqProofs PropSeq.
From Verif Require ClientModel SpecClient ClientProofs.

(** ** Model *)
(** fmt's %x of a number that is not negative, without padding. *)
Fixpoint hex_min (fuel : nat) (n : Z) : bytes :=
  match fuel with
  | O => []
  | S k => (if n <? 16 then [] else hex_min k (n / 16)) ++ [if n mod 16 <? 10 then 48 + n mod 16 else 87 + n mod 16]
  end.
(** fmt's %0<w>x of a signed number: the sign, then zeros up to the width, then the digits of the
    absolute value; the sign counts for the width.  16 digits cover every int64. *)
Definition fmt_hex (w : nat) (x : Z) : bytes :=
  let d := hex_min 16 (Z.abs x) in
  if x <? 0 then 45 :: repeat 48 (w - 1 - length d) ++ d else repeat 48 (w - length d) ++ d.

(** snowflake.go:64-66 String: the fields at one moment (the method takes no lock). *)
Definition sf_text (s : sf) : bytes :=
  fmt_hex 16 (Z.lor (Z.lor (Z.lor (shl64 (sf_ts s - sf_epoch) 22) (shl64 (sf_dc s) 19)) (shl64 (sf_worker s) 12)) (sf_seq s)).
(** snowflake32.go:69-71 String *)
Definition s32_text (s : sf32) : bytes :=
  fmt_hex 8 (Z.lor (Z.lor (Z.lor (shl32 (s32_sec s) 14) (shl32 (s32_dc s) 12)) (shl32 (s32_worker s) 9)) (s32_seq s)).
(** cycle_sequence.go:39-41 String: "%d:%d:%d" *)
Definition cyc_text (s : cyc) : bytes := FormatInt (cy_dc s) ++ 58 :: FormatInt (cy_worker s) ++ 58 :: FormatInt (cy_seq s).
(** codec/sgip/sequence.go:53-55 String: "%010d%010d%08x" of three uint32. *)
Definition sg_show (s : sgseq) : bytes := ClientModel.dec10 (sg_node s) ++ ClientModel.dec10 (sg_ts s) ++ ClientModel.hex8 (sg_seq s).

(** codec/sgip/sequence.go:27-43 NextVal, one state per assignment to a field: lines 30, 35, 36, 37,
    38 and 39. *)
Definition sg_writes (s : sgseq) (t : tod) : list sgseq :=
  let s1 := SgSeq (sg_node s) (sg_ts s) (Z.land (u32 (sg_seq s + 31)) 4294967295) in
  let s2 := SgSeq (sg_node s1) (u32 (t_mon t * 100000000)) (sg_seq s1) in
  let s3 := SgSeq (sg_node s2) (u32 (sg_ts s2 + u32 (t_day t * 1000000))) (sg_seq s2) in
  let s4 := SgSeq (sg_node s3) (u32 (sg_ts s3 + u32 (t_hour t * 10000))) (sg_seq s3) in
  let s5 := SgSeq (sg_node s4) (u32 (sg_ts s4 + u32 (t_min t * 100))) (sg_seq s4) in
  let s6 := SgSeq (sg_node s5) (u32 (sg_ts s5 + u32 (t_sec t))) (sg_seq s5) in
  [s1; s2; s3; s4; s5; s6].

(** ** Specification *)
(** The text is [w] lower-case hexadecimal digits and reads as [v]. *)
Definition hexes (w : Z) (t : bytes) (v : Z) : Prop := zlen t = w /\ hex_value t = Some v.
(** A decimal number with its sign. *)
Definition decimal (t : bytes) (x : Z) : Prop :=
  (0 <= x /\ t <> [] /\ Forall is_digit t /\ dec_value t = x) \/
  (x < 0 /\ exists u, t = 45 :: u /\ u <> [] /\ Forall is_digit u /\ dec_value u = - x).
(** The text of an SGIP number: two ten-digit decimals and eight hexadecimal digits. *)
Definition triple (t : bytes) (a b c : Z) : Prop :=
  exists x y z, t = x ++ y ++ z /\ zlen x = 10 /\ zlen y = 10 /\ Forall is_digit x /\ Forall is_digit y /\
    dec_value x = a /\ dec_value y = b /\ hexes 8 z c.
(** A real date and time. *)
Definition dated (t : tod) : Prop :=
  1 <= t_mon t <= 12 /\ 1 <= t_day t <= 31 /\ 0 <= t_hour t <= 23 /\ 0 <= t_min t <= 59 /\ 0 <= t_sec t <= 59.

(** ** Lemmas *)
Lemma hex_acc_app s : forall a t, hex_value_acc a (s ++ t) = match hex_value_acc a s with Some b => hex_value_acc b t | None => None end.
Proof. induction s as [|c s IH]; intros a t; [reflexivity|]. cbn [app hex_value_acc]. destruct (hex_digit_value c); [apply IH|reflexivity]. Qed.
Lemma hex_zeros n t : hex_value (repeat 48 n ++ t) = hex_value t.
Proof. unfold hex_value. induction n as [|n IH]; [reflexivity|]. cbn [repeat app hex_value_acc]. exact IH. Qed.
Lemma hex_min_value : forall k n, 0 <= n < 16 ^ Z.of_nat k -> (0 < k)%nat -> hex_value (hex_min k n) = Some n /\ (1 <= length (hex_min k n) <= k)%nat /\
  forall m, (1 <= m)%nat -> n < 16 ^ Z.of_nat m -> (length (hex_min k n) <= m)%nat.
Proof.
  assert (D : forall d, 0 <= d < 16 -> hex_digit_value (if d <? 10 then 48 + d else 87 + d) = Some d).
  { intros d H. unfold hex_digit_value. destruct (Z.ltb_spec d 10).
    - replace ((48 <=? 48 + d) && (48 + d <=? 57)) with true by lia. f_equal. lia.
    - replace ((48 <=? 87 + d) && (87 + d <=? 57)) with false by lia. replace ((97 <=? 87 + d) && (87 + d <=? 102)) with true by lia. f_equal. lia. }
  induction k as [|k IH]; intros n Hn Hk; [lia|]. cbn [hex_min]. pose proof (Z.mod_pos_bound n 16 ltac:(lia)) as B. pose proof (Z.div_mod n 16 ltac:(lia)) as DM.
  rewrite Nat2Z.inj_succ, Z.pow_succ_r in Hn by lia. destruct (Z.ltb_spec n 16).
  - cbn [app length]. unfold hex_value. cbn [hex_value_acc]. rewrite D by lia. split; [f_equal; rewrite Z.mod_small; lia|]. split; [lia|]. intros; lia.
  - destruct k as [|k]; [cbn in Hn; lia|]. destruct (IH (n / 16)) as (V & L & M); [|lia|].
    { split; [apply Z.div_pos; lia|]. apply Z.div_lt_upper_bound; lia. }
    unfold hex_value in *. rewrite hex_acc_app, V. cbn [hex_value_acc]. rewrite D by lia. rewrite app_length. cbn [length]. split; [f_equal; lia|]. split; [lia|].
    intros m Hm Hlt. destruct m as [|[|m]]; [lia|cbn in Hlt; lia|]. specialize (M (S m) ltac:(lia)). rewrite Nat2Z.inj_succ, Z.pow_succ_r in Hlt by lia.
    assert (n / 16 < 16 ^ Z.of_nat (S m)) by (apply Z.div_lt_upper_bound; lia). specialize (M H0). lia.
Qed.
Lemma fmt_hexes w x : (1 <= w <= 16)%nat -> 0 <= x < 16 ^ Z.of_nat w -> hexes (Z.of_nat w) (fmt_hex w x) x.
Proof.
  intros Hw Hx. unfold fmt_hex. replace (x <? 0) with false by lia. rewrite Z.abs_eq by lia.
  assert (16 ^ Z.of_nat w <= 16 ^ Z.of_nat 16) by (apply Z.pow_le_mono_r; lia).
  destruct (hex_min_value 16 x) as (V & L & M); [lia|lia|]. specialize (M w ltac:(lia) ltac:(lia)). split; [|rewrite hex_zeros; exact V].
  unfold zlen. rewrite app_length, repeat_length. lia.
Qed.
Lemma decimal_FormatInt x : - 2 ^ 63 <= x < 2 ^ 63 -> decimal (FormatInt x) x.
Proof.
  intros H. assert (N : forall l : bytes, (1 <= length l)%nat -> l <> []) by (intros [|] L; [cbn in L; lia|discriminate]). assert (P : 2 ^ 63 < 10 ^ Z.of_nat 20) by reflexivity. unfold FormatInt. destruct (Z.ltb_spec x 0).
  - right. split; [lia|]. destruct (dec_fuel_spec 20 (- x)) as (V & D & L & _); [lia|lia|]. exists (dec_fuel 20 (- x)). repeat split; auto. apply N. lia.
  - left. split; [lia|]. destruct (dec_fuel_spec 20 x) as (V & D & L & _); [lia|lia|]. repeat split; auto. apply N. lia.
Qed.
Lemma decimal_same t x y : decimal t x -> decimal t y -> x = y.
Proof.
  intros [(A & N & D & V)|(A & u & E & N & D & V)] [(A' & N' & D' & V')|(A' & u' & E' & N' & D' & V')]; [congruence| | |].
  - subst t. inversion D as [|? ? B ?]. unfold is_digit in B. lia.
  - subst t. inversion D' as [|? ? B ?]. unfold is_digit in B. lia.
  - rewrite E in E'. injection E' as <-. lia.
Qed.
Lemma same_dec l : SpecClient.dec_value l = dec_value l.
Proof. reflexivity. Qed.
Lemma triple_of a b c : 0 <= a < 2 ^ 32 -> 0 <= b < 2 ^ 32 -> 0 <= c < 2 ^ 32 -> triple (ClientModel.dec10 a ++ ClientModel.dec10 b ++ ClientModel.hex8 c) a b c.
Proof.
  intros A B C. destruct (ClientProofs.dec10_value a A) as [V1 W1]. destruct (ClientProofs.dec10_value b B) as [V2 W2]. destruct (Uint32HexString_value c C) as [V3 W3]. rewrite same_dec in V1, V2.
  exists (ClientModel.dec10 a), (ClientModel.dec10 b), (ClientModel.hex8 c). split; [reflexivity|]. split; [reflexivity|]. split; [reflexivity|]. split; [exact W1|]. split; [exact W2|]. split; [exact V1|]. split; [exact V2|]. split; [exact W3|exact V3].
Qed.
Lemma split_len {A} (a b c d : list A) : a ++ b = c ++ d -> length a = length c -> a = c /\ b = d.
Proof. revert c. induction a as [|x a IH]; intros [|y c] E L; try discriminate L; [auto|]. cbn in E, L. injection E as -> E. destruct (IH c E ltac:(lia)) as [-> ->]. auto. Qed.
Lemma triple_same t a b c a' b' c' : triple t a b c -> triple t a' b' c' -> a = a' /\ b = b' /\ c = c'.
Proof.
  intros (x & y & z & E & L1 & L2 & _ & _ & V1 & V2 & _ & V3) (x' & y' & z' & E' & L1' & L2' & _ & _ & V1' & V2' & _ & V3').
  rewrite E in E'. unfold zlen in *. apply split_len in E' as [<- E']; [|lia]. apply split_len in E' as [<- <-]; [|lia]. split; [congruence|]. split; congruence.
Qed.
Lemma u32_small x : 0 <= x < 2 ^ 32 -> u32 x = x.
Proof. intros H. unfold u32. apply Z.mod_small. exact H. Qed.
Lemma u32_range x : 0 <= u32 x < 2 ^ 32.
Proof. unfold u32. apply Z.mod_pos_bound. reflexivity. Qed.
Lemma seq_land x : Z.land (u32 x) 4294967295 = u32 x.
Proof. change 4294967295 with (Z.ones 32). rewrite Z.land_ones by lia. apply Z.mod_small. apply u32_range. Qed.
Lemma sg_ts_val t : dated t ->
  u32 (u32 (u32 (u32 (u32 (t_mon t * 100000000) + u32 (t_day t * 1000000)) + u32 (t_hour t * 10000)) + u32 (t_min t * 100)) + u32 (t_sec t)) =
  t_mon t * 100000000 + t_day t * 1000000 + t_hour t * 10000 + t_min t * 100 + t_sec t.
Proof. intros (A & B & C & D & E). rewrite (u32_small (t_mon t * _)), (u32_small (t_day t * _)), (u32_small (t_hour t * _)), (u32_small (t_min t * _)), (u32_small (t_sec t)) by lia. 
  rewrite (u32_small (t_mon t * 100000000 + t_day t * 1000000)) by lia. rewrite (u32_small (_ + t_hour t * 10000)) by lia. rewrite (u32_small (_ + t_min t * 100)) by lia. apply u32_small. lia.
Qed.

(** ** Theorems *)
(** After a call of a 64-bit generator whose clock readings lie in the 41 bits from 2020 on, the text
    of the generator is the sixteen hexadecimal digits of the identifier the call returned. *)
Theorem C131_snowflake_partial : forall s clk s' v rest, 0 <= sf_dc s < 8 -> 0 <= sf_worker s < 128 ->
  (forall x, In x clk -> epoch2020 <= x <= epoch2020 + max41) -> sf_next s clk = Some (s', v, rest) -> hexes 16 (sf_text s') v.
Proof.
  intros s clk s' v rest Hd Hw Hc E. destruct (C11_every_call s clk s' v rest E) as (E1 & E2 & Q & u & now & C & K & _).
  assert (R : epoch2020 <= now <= epoch2020 + max41) by (apply Hc; rewrite C; apply in_or_app; right; left; reflexivity).
  destruct K as [T V]; [lia|]. assert (X : sf_text s' = fmt_hex 16 v).
  { unfold sf_text. rewrite E1, E2, T, V. reflexivity. }
  rewrite X. apply (fmt_hexes 16); [lia|]. change (16 ^ Z.of_nat 16) with (2 ^ 64). unfold max41 in R. rewrite V, sf_pack_val by lia. lia.
Qed.
Example C131_case_snowflake : exists s' v rest, sf_next (Sf 1600000000123 9 3 4094) [1600000000123] = Some (s', v, rest) /\
  sf_text s' = [48;49;52;97;97;102;99;51;49;101;100;56;57;102;102;102] /\ v = 93079994885513215 /\ rest = [].
Proof. eexists _, _, _. split; [reflexivity|]. repeat split; vm_compute; reflexivity. Qed.
Print Assumptions C131_snowflake_partial.

(** A generator that has not been called yet shows a text that starts with a minus sign: no sixteen
    hexadecimal digits. *)
Theorem C131_refuted_fresh : forall d w, 0 <= d < 8 -> 0 <= w < 128 -> hd 0 (sf_text (NewSnowflake d w)) = 45 /\ hex_value (sf_text (NewSnowflake d w)) = None.
Proof.
  intros d w Hd Hw. assert (E : exists u, sf_text (NewSnowflake d w) = 45 :: u).
  { unfold sf_text, fmt_hex. cbn [NewSnowflake sf_ts sf_dc sf_worker sf_seq]. rewrite Z.lor_0_r.
    replace (Z.lor (Z.lor (shl64 (0 - sf_epoch) 22) (shl64 d 19)) (shl64 w 12) <? 0) with true; [eexists; reflexivity|]. symmetry. apply Z.ltb_lt.
    rewrite !Z.lor_neg. left. left. reflexivity. }
  destruct E as [u ->]. split; reflexivity.
Qed.
Example C131_case_fresh : sf_text (NewSnowflake 1 2) = [45;53;98;100;55;50;98;100;99;102;102;102;55;101;48;48;48].
Proof. vm_compute. reflexivity. Qed.
Print Assumptions C131_refuted_fresh.

(** Once the clock is past the 41 bits every call returns 0, but the text shows the first identifier
    of the last millisecond that still fitted. *)
Theorem C131_refuted_late : forall s clk s' v rest, 0 <= sf_dc s < 8 -> 0 <= sf_worker s < 128 -> epoch2020 < sf_ts s <= epoch2020 + max41 ->
  (forall x, In x clk -> epoch2020 + max41 < x) -> sf_next s clk = Some (s', v, rest) ->
  v = 0 /\ hexes 16 (sf_text s') ((sf_ts s - epoch2020) * 2 ^ 22 + sf_dc s * 2 ^ 19 + sf_worker s * 2 ^ 12) /\ ~ hexes 16 (sf_text s') v.
Proof.
  intros s clk s' v rest Hd Hw Ht Hc E. destruct (C11_every_call s clk s' v rest E) as (E1 & E2 & Q & u & now & C & _ & K & _ & Z1 & Z2).
  assert (R : epoch2020 + max41 < now) by (apply Hc; rewrite C; apply in_or_app; right; left; reflexivity).
  destruct (K R) as [T V]. assert (S0 : sf_seq s' = 0).
  { destruct u as [|x u]; [apply Z1; [reflexivity|lia]|apply Z2; discriminate]. }
  assert (X : hexes 16 (sf_text s') ((sf_ts s - epoch2020) * 2 ^ 22 + sf_dc s * 2 ^ 19 + sf_worker s * 2 ^ 12)).
  { unfold sf_text. rewrite E1, E2, T, S0. change sf_epoch with epoch2020.
    change (Z.lor _ 0) with (sf_pack (sf_ts s - epoch2020) (sf_dc s) (sf_worker s) 0).
    unfold max41 in *. rewrite sf_pack_val by lia. rewrite Z.add_0_r. apply (fmt_hexes 16); [lia|]. change (16 ^ Z.of_nat 16) with (2 ^ 64). lia. }
  split; [exact V|]. split; [exact X|]. intros [_ Y]. destruct X as [_ X]. rewrite X in Y. injection Y as Y. lia.
Qed.
Example C131_case_late : exists s' v rest, sf_next (Sf 1600000000123 9 3 7) [3776831255552] = Some (s', v, rest) /\ v = 0 /\ hd 0 (sf_text s') = 48.
Proof. eexists _, _, _. split; [reflexivity|]. split; reflexivity. Qed.
Print Assumptions C131_refuted_late.

(** A 32-bit generator always shows the eight hexadecimal digits of the number it returned last. *)
Theorem C131_seconds : forall s clk s' v rest, 0 <= s32_dc s < 4 -> 0 <= s32_worker s < 8 -> (forall x, In x clk -> 0 <= x <= 86399) ->
  s32_next s clk = Some (s', v, rest) -> hexes 8 (s32_text s') v.
Proof.
  intros s clk s' v rest Hd Hw Hc E.
  assert (M : forall x, 0 <= Z.land x 511 < 512) by (intros x; rewrite land_511; apply Z.mod_pos_bound; lia).
  assert (G : forall now q r, 0 <= now <= 86399 -> 0 <= q < 512 ->
    Some (Sf32 now (s32_dc s) (s32_worker s) q, s32_pack now (s32_dc s) (s32_worker s) q, r) = Some (s', v, rest) -> hexes 8 (s32_text s') v).
  { intros now q r Hn Hq H. injection H as <- <- <-. unfold s32_text. cbn [s32_sec s32_dc s32_worker s32_seq].
    change (Z.lor (Z.lor (Z.lor (shl32 now 14) (shl32 (s32_dc s) 12)) (shl32 (s32_worker s) 9)) q) with (s32_pack now (s32_dc s) (s32_worker s) q).
    apply (fmt_hexes 8); [lia|]. change (16 ^ Z.of_nat 8) with (2 ^ 32). rewrite s32_pack_val by lia. lia. }
  destruct clk as [|now0 c]; [discriminate|]. unfold s32_next in E. pose proof (Hc now0 (or_introl eq_refl)) as H0. destruct (s32_sec s =? now0).
  - destruct (Z.land (s32_seq s + 1) 511 =? 0).
    + destruct (spin (s32_sec s) c) as [[n r]|] eqn:SP; [|discriminate]. apply (G n (Z.land (s32_seq s + 1) 511) r); auto.
      apply Hc. right. clear - SP. revert SP. generalize (s32_sec s). induction c as [|x c IH]; intros b SP; [discriminate|]. cbn [spin] in SP. destruct (x <=? b); [right; eapply IH; exact SP|]. left. congruence.
    + apply (G now0 (Z.land (s32_seq s + 1) 511) c); auto.
  - apply (G now0 0 c); auto; lia.
Qed.
Example C131_case_seconds : exists s' v rest, s32_next (Sf32 86399 3 7 9) [86399] = Some (s', v, rest) /\ s32_text s' = [53;52;53;102;102;101;48;97] /\ v = 1415577098.
Proof. eexists _, _, _. split; [reflexivity|]. split; vm_compute; reflexivity. Qed.
Print Assumptions C131_seconds.

(** A cyclic generator shows its two node numbers and the counter part of the number it returned. *)
Theorem C131_cycle : forall s s' v, - 2 ^ 31 <= cy_dc s < 2 ^ 31 -> - 2 ^ 31 <= cy_worker s < 2 ^ 31 -> cyc_next s = (s', v) ->
  exists a b c, cyc_text s' = a ++ [58] ++ b ++ [58] ++ c /\ decimal a (cy_dc s) /\ decimal b (cy_worker s) /\ decimal c (v mod 2 ^ 26).
Proof.
  intros s s' v Hd Hw E. unfold cyc_next in E. rewrite cyc_seq_next in E. set (q := (cy_seq s + 1) mod 2 ^ 26) in *.
  assert (Q : 0 <= q < 2 ^ 26) by (apply Z.mod_pos_bound; reflexivity). injection E as <- <-.
  pose proof (cyc_low (cy_dc s) (cy_worker s) q Q) as L. change 67108863 with (Z.ones 26) in L. rewrite Z.land_ones in L by lia. rewrite L.
  eexists _, _, _. split; [unfold cyc_text; cbn [cy_dc cy_worker cy_seq app]; reflexivity|]. repeat split; apply decimal_FormatInt; lia.
Qed.
(** The texts of one generator after two calls are the same exactly when the numbers are. *)
Theorem C131_cycle_same : forall s1 s2 t1 t2 v1 v2, cy_dc s1 = cy_dc s2 -> cy_worker s1 = cy_worker s2 ->
  cyc_next s1 = (t1, v1) -> cyc_next s2 = (t2, v2) -> (cyc_text t1 = cyc_text t2 <-> v1 = v2).
Proof.
  intros s1 s2 t1 t2 v1 v2 D W E1 E2. unfold cyc_next in E1, E2. rewrite cyc_seq_next in E1, E2. rewrite D, W in E1.
  set (q1 := (cy_seq s1 + 1) mod 2 ^ 26) in *. set (q2 := (cy_seq s2 + 1) mod 2 ^ 26) in *.
  assert (Q1 : 0 <= q1 < 2 ^ 26) by (apply Z.mod_pos_bound; reflexivity). assert (Q2 : 0 <= q2 < 2 ^ 26) by (apply Z.mod_pos_bound; reflexivity).
  injection E1 as <- <-. injection E2 as <- <-. unfold cyc_text. cbn [cy_dc cy_worker cy_seq]. split.
  - intros H. apply app_inv_head in H. injection H as H. apply app_inv_head in H. injection H as H.
    assert (q1 = q2); [|congruence]. pose proof (decimal_FormatInt q1 ltac:(lia)) as A. pose proof (decimal_FormatInt q2 ltac:(lia)) as B. rewrite H in A. exact (decimal_same _ _ _ A B).
  - intros H. assert (q1 = q2); [|congruence]. rewrite <- (cyc_low (cy_dc s2) (cy_worker s2) q1 Q1), <- (cyc_low (cy_dc s2) (cy_worker s2) q2 Q2). rewrite H. reflexivity.
Qed.
Example C131_case_cycle : cyc_text (fst (cyc_next (Cyc 1 5 67108862))) = [49;58;53;58;54;55;49;48;56;56;54;51] /\ cyc_text (fst (cyc_next (Cyc (-2) 5 67108863))) = [45;50;58;53;58;48]
  /\ snd (cyc_next (Cyc 0 5 41)) = snd (cyc_next (Cyc 2 5 41)) /\ cyc_text (fst (cyc_next (Cyc 0 5 41))) <> cyc_text (fst (cyc_next (Cyc 2 5 41))).
Proof. split; [reflexivity|]. split; [reflexivity|]. split; [reflexivity|]. vm_compute. discriminate. Qed.
Print Assumptions C131_cycle.
Print Assumptions C131_cycle_same.

(** An SGIP generator shows the three numbers of its last value in the form in which a packet with
    that value is recorded, and different values never have the same text. *)
Theorem C131_sgip : forall s t s' a b c, 0 <= sg_node s < 2 ^ 32 -> sg_next s t = (s', (a, b, c)) ->
  triple (sg_show s') a b c /\ sg_show s' = ClientModel.Sequence2String (a, b, c) /\
  (forall s1 t1 s1' a1 b1 c1, 0 <= sg_node s1 < 2 ^ 32 -> sg_next s1 t1 = (s1', (a1, b1, c1)) -> (sg_show s1' = sg_show s' <-> (a1, b1, c1) = (a, b, c))).
Proof.
  assert (F : forall s t s' a b c, 0 <= sg_node s < 2 ^ 32 -> sg_next s t = (s', (a, b, c)) ->
    triple (sg_show s') a b c /\ sg_show s' = ClientModel.Sequence2String (a, b, c)).
  { intros s t s' a b c N E. unfold sg_next in E. rewrite seq_land in E. injection E as <- <- <- <-. unfold sg_show. cbn [sg_node sg_ts sg_seq].
    split; [|reflexivity]. apply triple_of; [exact N|apply u32_range|apply u32_range]. }
  intros s t s' a b c N E. destruct (F _ _ _ _ _ _ N E) as [T S]. split; [exact T|]. split; [exact S|].
  intros s1 t1 s1' a1 b1 c1 N1 E1. destruct (F _ _ _ _ _ _ N1 E1) as [T1 S1]. split.
  - intros H. rewrite H in T1. destruct (triple_same _ _ _ _ _ _ _ T1 T) as (-> & -> & ->). reflexivity.
  - intros H. rewrite S, S1, H. reflexivity.
Qed.
Example C131_case_sgip : sg_show (fst (sg_next (SgSeq 3001 0 4294967290) (Tod 11 16 22 5 9))) =
  [48;48;48;48;48;48;51;48;48;49; 49;49;49;54;50;50;48;53;48;57; 48;48;48;48;48;48;49;57].
Proof. vm_compute. reflexivity. Qed.
Print Assumptions C131_sgip.

(** The text (and CurVal) takes no lock.  Read while a call is assigning the fields it can show a
    number that was not handed out: after the counter is counted up it is neither the value before
    nor the value after, and after the month is stored it is the text of no value that any SGIP
    generator hands out on a real date. *)
Theorem C131_refuted_torn : forall s t, 0 <= sg_node s < 2 ^ 32 -> 0 <= sg_ts s < 2 ^ 32 -> 0 <= sg_seq s < 2 ^ 32 -> dated t ->
  exists s1 s2 more, sg_writes s t = s1 :: s2 :: more /\ last (sg_writes s t) s = fst (sg_next s t) /\
    sg_show s1 <> sg_show s /\ (sg_ts s <> sg_ts (fst (sg_next s t)) -> sg_show s1 <> sg_show (fst (sg_next s t))) /\
    (forall s0 clk v, 0 <= sg_node s0 < 2 ^ 32 -> Forall dated clk -> In v (sg_run s0 clk) -> ClientModel.Sequence2String v <> sg_show s2).
Proof.
  intros s t N T Q D. pose proof D as (D1 & D2 & D3 & D4 & D5). eexists _, _, _. split; [reflexivity|]. split; [reflexivity|].
  pose proof (u32_range (sg_seq s + 31)) as R. rewrite seq_land.
  assert (W : triple (sg_show (SgSeq (sg_node s) (sg_ts s) (u32 (sg_seq s + 31)))) (sg_node s) (sg_ts s) (u32 (sg_seq s + 31))) by (apply triple_of; auto).
  split; [|split].
  - intros E. pose proof (triple_of _ _ _ N T Q) as W0. unfold sg_show in W, E. cbn [sg_node sg_ts sg_seq] in W, E. rewrite E in W. destruct (triple_same _ _ _ _ _ _ _ W W0) as (_ & _ & X).
    unfold u32 in X. destruct (Z.lt_ge_cases (sg_seq s + 31) (2 ^ 32)) as [L|L]; [rewrite Z.mod_small in X by lia; lia|].
    rewrite (Z.mod_eq _ (2 ^ 32)) in X by lia. replace ((sg_seq s + 31) / 2 ^ 32) with 1 in X; [lia|]. apply Z.div_unique with (r := sg_seq s + 31 - 2 ^ 32); lia.
  - intros NE E. destruct (sg_next s t) as [s' [[a b] c]] eqn:X. destruct (C131_sgip s t s' a b c N X) as [T1 _]. cbn [fst] in *. rewrite E in W. destruct (triple_same _ _ _ _ _ _ _ W T1) as (_ & Y & _).
    apply NE. rewrite Y. unfold sg_next in X. injection X as <- _ <- _. reflexivity.
  - cbn [sg_node sg_ts sg_seq]. intros s0 clk v N0 F I E.
    assert (P : exists a b c, v = (a, b, c) /\ 0 <= a < 2 ^ 32 /\ 0 <= c < 2 ^ 32 /\ exists x, dated x /\ b = t_mon x * 100000000 + t_day x * 1000000 + t_hour x * 10000 + t_min x * 100 + t_sec x).
    { revert s0 N0 I. induction F as [|x clk Dx F IH]; intros s0 N0 I; [destruct I|]. cbn [sg_run sg_next] in I. destruct I as [<-|I].
      - eexists _, _, _. split; [reflexivity|]. split; [exact N0|]. split; [rewrite seq_land; apply u32_range|]. exists x. split; [exact Dx|]. apply sg_ts_val. exact Dx.
      - eapply IH; [|exact I]. exact N0. }
    destruct P as (a & b & c & -> & A & C & x & (X1 & X2 & X3 & X4 & X5) & B).
    assert (T1 : triple (ClientModel.Sequence2String (a, b, c)) a b c) by (apply triple_of; auto; lia).
    rewrite E in T1. unfold sg_show in T1. cbn [sg_node sg_ts sg_seq] in T1.
    assert (T2 := triple_of (sg_node s) (u32 (t_mon t * 100000000)) (u32 (sg_seq s + 31)) N (u32_range _) R).
    destruct (triple_same _ _ _ _ _ _ _ T1 T2) as (_ & Y & _). rewrite u32_small in Y by lia. lia.
Qed.
Example C131_case_torn : dated (Tod 11 16 22 5 9) /\
  map sg_show (firstn 2 (sg_writes (SgSeq 3001 1116220508 5) (Tod 11 16 22 5 9))) =
  [[48;48;48;48;48;48;51;48;48;49; 49;49;49;54;50;50;48;53;48;56; 48;48;48;48;48;48;50;52];
   [48;48;48;48;48;48;51;48;48;49; 49;49;48;48;48;48;48;48;48;48; 48;48;48;48;48;48;50;52]].
Proof. split; [unfold dated; cbn; lia|]. vm_compute. reflexivity. Qed.
Print Assumptions C131_refuted_torn.
