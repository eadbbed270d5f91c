(** * PropTlvText: what the log shows of optional parameters (C132).
    Code: /repo/utils/tlv.go:40-42 and 254-268 (object.String, TlvList.String), shown in the field
    "tlv" of an SMGP submit (/repo/codec/smgp/submit.go:273).  Models: LogModel.v, SmgpModel.v. *)
From Coq Require Import String.
From Verif Require Import Base UtilsModel SpecText UtilsProofs TlvModel TlvProofs SmgpModel LogModel PropLog.
Local Open Scope string_scope.
Local Open Scope list_scope.
Local Open Scope Z_scope.

(** ** Specification *)
(** A parameter as it can stand in a packet: the tag and the length are 16-bit numbers. *)
Definition param_ok (o : tlv) : Prop := 0 <= t_typ o < 65536 /\ 0 <= t_len o < 65536 /\ bytes_ok (t_val o).
(** A value: nothing, or 0x and two digits for each octet. *)
Definition shows_value (t v : bytes) : Prop := (t = [] /\ v = []) \/ exists u, t = 48 :: 120 :: u /\ hex_read u = Some v /\ v <> [].
(** The text of one parameter: {tag: a, len: b, val: c}, *)
Definition shows_param (t : bytes) (o : tlv) : Prop :=
  exists a b c, t = [123;116;97;103;58;32] ++ a ++ [44;32;108;101;110;58;32] ++ b ++ [44;32;118;97;108;58;32] ++ c ++ [125;44] /\
    hex_value a = Some (t_typ o) /\ Forall is_digit b /\ dec_value b = t_len o /\ shows_value c (t_val o).
(** The text of a list of parameters: in square brackets, one after the other. *)
Inductive shows_params : bytes -> list tlv -> Prop :=
| shows_end : shows_params [93] []
| shows_more t o r l : shows_param t o -> shows_params r l -> shows_params (t ++ r) (o :: l).
Definition shows_tlvs (t : bytes) (l : list tlv) : Prop := exists r, t = 91 :: r /\ shows_params r l.
(** The parameters of a submit: a packet that has none is read with no list. *)
Definition params (s : msubmit) : list tlv := match ms_tlv s with Some l => l | None => [] end.

(** ** Lemmas *)
Lemma hex_app s : forall a t, hex_value_acc a (s ++ t) = match hex_value_acc a s with Some b => hex_value_acc b t | None => None end.
Proof. induction s as [|c s IH]; intros a t; [reflexivity|]. cbn [app hex_value_acc]. destruct (hex_digit_value c); [apply IH|reflexivity]. Qed.
Lemma hexnum_value : forall k n, 0 <= n < 16 ^ Z.of_nat k -> (0 < k)%nat -> hex_value (hexnum_fuel k n) = Some n.
Proof.
  induction k as [|k IH]; intros n Hn Hk; [lia|]. cbn [hexnum_fuel]. rewrite Nat2Z.inj_succ, Z.pow_succ_r in Hn by lia. unfold hex_value in *. destruct (Z.ltb_spec n 16).
  - cbn [hex_value_acc]. rewrite hexd_value by lia. reflexivity.
  - destruct k as [|k]; [cbn in Hn; lia|]. rewrite hex_app, IH; [|split; [apply Z.div_pos; lia|apply Z.div_lt_upper_bound; lia]|lia].
    cbn [hex_value_acc]. rewrite hexd_value by (apply Z.mod_pos_bound; lia). f_equal. pose proof (Z.div_mod n 16). lia.
Qed.
Lemma hex_chars t v : hex_value t = Some v -> Forall (fun c => 48 <= c <= 57 \/ 97 <= c <= 102) t.
Proof.
  unfold hex_value. generalize 0. revert v. induction t as [|c t IH]; intros v a E; [constructor|]. cbn [hex_value_acc] in E. unfold hex_digit_value in E.
  destruct ((48 <=? c) && (c <=? 57)) eqn:A; [constructor; [lia|eapply IH; exact E]|]. destruct ((97 <=? c) && (c <=? 102)) eqn:B; [constructor; [lia|eapply IH; exact E]|discriminate].
Qed.
Lemma read_chars : forall n t v, (length t <= n)%nat -> hex_read t = Some v -> Forall (fun c => 48 <= c <= 57 \/ 97 <= c <= 102) t.
Proof.
  induction n as [|n IH]; intros t v L E; [destruct t; [constructor|cbn in L; lia]|]. destruct t as [|a [|b r]]; [constructor|discriminate|]. cbn [hex_read] in E.
  destruct (hex_digit_value a) as [x|] eqn:A; [|discriminate]. destruct (hex_digit_value b) as [y|] eqn:B; [|discriminate]. destruct (hex_read r) as [l|] eqn:R; [|discriminate].
  assert (D : forall c z, hex_digit_value c = Some z -> 48 <= c <= 57 \/ 97 <= c <= 102).
  { intros c z H. unfold hex_digit_value in H. destruct ((48 <=? c) && (c <=? 57)) eqn:C1; [lia|]. destruct ((97 <=? c) && (c <=? 102)) eqn:C2; [lia|discriminate]. }
  constructor; [eauto|]. constructor; [eauto|]. apply (IH r l); [cbn in L; lia|exact R].
Qed.
(** Two texts split at the first occurrence of the same sign. *)
Lemma split_at d (a a' b b' : bytes) : ~ In d a -> ~ In d a' -> a ++ d :: b = a' ++ d :: b' -> a = a' /\ b = b'.
Proof.
  revert a'. induction a as [|x a IH]; intros [|y a'] N N' E; cbn in E.
  - injection E as <-. auto.
  - injection E as <- _. destruct N'. left. reflexivity.
  - injection E as -> _. destruct N. left. reflexivity.
  - injection E as -> E. destruct (IH a') as [-> ->]; [intros H; apply N; right; exact H|intros H; apply N'; right; exact H|exact E|]. auto.
Qed.
Lemma not_in_class (P : Z -> Prop) d t : Forall P t -> ~ P d -> ~ In d t.
Proof. intros F N I. rewrite Forall_forall in F. apply N, F, I. Qed.
Lemma value_chars c v : shows_value c v -> ~ In 125 c.
Proof.
  intros [[-> _]|(u & -> & R & _)]; [intros []|]. pose proof (read_chars _ u v (le_n _) R) as F. intros [H|[H|H]]; [lia|lia|]. rewrite Forall_forall in F. apply F in H. lia.
Qed.
Lemma value_same c v v' : shows_value c v -> shows_value c v' -> v = v'.
Proof. intros [[-> ->]|(u & -> & R & _)] [[E ->]|(u' & E & R' & _)]; [reflexivity|discriminate E|discriminate E|]. injection E as <-. congruence. Qed.
Lemma param_same t t' o o' r r' : shows_param t o -> shows_param t' o' -> t ++ r = t' ++ r' -> o = o' /\ r = r'.
Proof.
  intros (a & b & c & -> & A & B & D & C) (a' & b' & c' & -> & A' & B' & D' & C') E. rewrite <- !app_assoc in E. apply app_inv_head in E. cbn [app] in E.
  apply split_at in E as [<- E]; [|apply (not_in_class _ _ _ (hex_chars _ _ A)); lia|apply (not_in_class _ _ _ (hex_chars _ _ A')); lia].
  injection E as E. apply split_at in E as [<- E]; [|apply (not_in_class _ _ _ B); unfold is_digit; lia|apply (not_in_class _ _ _ B'); unfold is_digit; lia].
  injection E as E. apply split_at in E as [<- E]; [|exact (value_chars _ _ C)|exact (value_chars _ _ C')]. injection E as E. split; [|exact E].
  destruct o as [o1 o2 o3], o' as [p1 p2 p3]. cbn [t_typ t_len t_val] in *. pose proof (value_same _ _ _ C C'). congruence.
Qed.
Lemma shows_params_same : forall t l, shows_params t l -> forall l', shows_params t l' -> l = l'.
Proof.
  assert (I : forall u l', shows_params u l' -> (u = [93] /\ l' = []) \/ exists t o r l, u = t ++ r /\ l' = o :: l /\ shows_param t o /\ shows_params r l).
  { intros u l' [|t o r l P R]; [left; auto|right]. exists t, o, r, l. auto. }
  induction 1 as [|t o r l P R IH]; intros l' S'; apply I in S' as [[E ->]|(t' & o' & r' & l0 & E & -> & P' & R')].
  - reflexivity.
  - destruct P' as (a & b & c & -> & _). discriminate E.
  - destruct P as (a & b & c & -> & _). discriminate E.
  - destruct (param_same _ _ _ _ _ _ P P' E) as [<- <-]. f_equal. apply IH. exact R'.
Qed.
Lemma tlv_shows o : param_ok o -> shows_param (tlv_String o ++ [44]) o.
Proof.
  intros (T & L & V). exists (hexnum (t_typ o)), (FormatInt (t_len o)), (match t_val o with [] => [] | v => [48; 120] ++ hex_bytes v end). split.
  - unfold tlv_String. change (ascii_bytes "{tag: ") with [123;116;97;103;58;32]. change (ascii_bytes ", len: ") with [44;32;108;101;110;58;32]. change (ascii_bytes ", val: ") with [44;32;118;97;108;58;32].
    change (ascii_bytes "0x") with [48; 120]. change (ascii_bytes "}") with [125]. rewrite <- !app_assoc. reflexivity.
  - split; [apply (hexnum_value 16); [|lia]; assert (65536 < 16 ^ Z.of_nat 16) by reflexivity; lia|].
    destruct (dec_fuel_spec 20 (t_len o)) as (D & F & _); [assert (65536 < 10 ^ Z.of_nat 20) by reflexivity; lia|lia|].
    unfold FormatInt. replace (t_len o <? 0) with false by lia. split; [exact F|]. split; [exact D|].
    destruct (t_val o) as [|x v] eqn:E; [left; auto|]. right. exists (hex_bytes (x :: v)). split; [reflexivity|]. split; [apply hex_read_bytes; exact V|discriminate].
Qed.
Lemma read_loop_ok : forall k b, bytes_ok b -> Forall param_ok (fst (read_loop k b)).
Proof.
  assert (U : forall b x r, bytes_ok b -> read_u16 b = Ok (x, r) -> 0 <= x < 65536 /\ bytes_ok r).
  { intros b x r B E. destruct b as [|y [|z b]]; try discriminate E. unfold bytes_ok, is_byte in *. inversion B as [|? ? B1 B2]; subst. inversion B2 as [|? ? B3 B4]; subst. cbn in E. injection E as <- <-. split; [lia|exact B4]. }
  induction k as [|k IH]; intros b B; [constructor|]. cbn [read_loop]. destruct (ReadObject b) as [[o b']|e|] eqn:R; [|constructor|constructor].
  unfold ReadObject in R. destruct (read_u16 b) as [[x b1]|e|] eqn:R1; cbn [bind] in R; [|discriminate R|discriminate R]. destruct (U _ _ _ B R1) as [X B1].
  destruct (read_u16 b1) as [[y b2]|e|] eqn:R2; cbn [bind] in R; [|discriminate R|discriminate R]. destruct (U _ _ _ B1 R2) as [Y B2].
  destruct (buf_read y b2) as [[v b3]|e|] eqn:R3; cbn [bind] in R; [|discriminate R|discriminate R].
  assert (V : bytes_ok v /\ bytes_ok b3).
  { unfold buf_read in R3. destruct (y =? 0); [injection R3 as <- <-; split; [constructor|exact B2]|]. destruct b2 as [|z b2]; [discriminate R3|]. injection R3 as <- <-.
    unfold bytes_ok in *. rewrite <- (firstn_skipn (Z.to_nat y) (z :: b2)) in B2. apply Forall_app in B2. exact B2. }
  destruct (negb (u16 (zlen v) =? y)); [discriminate R|]. injection R as <- <-. specialize (IH b3 (proj2 V)). destruct (read_loop k b3) as [l e]. cbn [fst] in *. constructor; [|exact IH].
  unfold param_ok. cbn [t_typ t_len t_val]. tauto.
Qed.
Lemma decoded_ok gbd ver seq f s : bytes_ok f -> MSubmit_Decode gbd ver seq f = Ok s -> Forall param_ok (params s).
Proof.
  intros B E. unfold MSubmit_Decode in E. repeat match type of E with bind ?r _ = Ok _ => let x := fresh "x" in let R := fresh "R" in destruct r as [x|?|] eqn:R; cbn [bind] in E; [|discriminate E|discriminate E]; try (destruct x as [? ?]) end.
  injection E as <-. unfold params. cbn [ms_tlv]. match goal with R : (if ?c then _ else _) = Ok ?o |- context [match ?o with Some _ => _ | None => _ end] => destruct c; [|injection R as <-; constructor] end.
  match goal with R : bind (slice f ?a ?b) _ = Ok _ |- _ => destruct (slice f a b) as [w|?|] eqn:S; cbn [bind] in R; [|discriminate R|discriminate R]; injection R as <- end.
  pose proof (slice_bytes_ok _ _ _ _ B S) as Z. pose proof (read_loop_ok (Datatypes.S (length w)) w Z) as P. unfold TlvRead. destruct (read_loop (Datatypes.S (length w)) w). exact P.
Qed.

(** ** Theorems *)
(** The text shows the parameters, all of them and in their order, and it shows no other list. *)
Theorem C132_text : forall l, Forall param_ok l -> shows_tlvs (tlvs_String (Some l)) l /\ forall l', shows_tlvs (tlvs_String (Some l)) l' -> l' = l.
Proof.
  intros l H. assert (P : shows_tlvs (tlvs_String (Some l)) l).
  { exists (flat_map (fun t => tlv_String t ++ [44]) l ++ [93]). split; [reflexivity|]. induction H as [|o l O _ IH]; [constructor|]. cbn [flat_map]. rewrite <- app_assoc. constructor; [apply tlv_shows; exact O|exact IH]. }
  split; [exact P|]. intros l' (r & E & P'). destruct P as (r0 & E0 & P). rewrite E in E0. injection E0 as <-. symmetry. exact (shows_params_same _ _ P _ P').
Qed.
Example C132_case_text : tlvs_String (Some [Tlv 9 1 [3]; Tlv 4096 2 [171; 0]; Tlv 1 0 []]) =
    ascii_bytes "[{tag: 9, len: 1, val: 0x03},{tag: 1000, len: 2, val: 0xab00},{tag: 1, len: 0, val: },]"
  /\ Forall param_ok [Tlv 9 1 [3]; Tlv 4096 2 [171; 0]; Tlv 1 0 []].
Proof. split; [vm_compute; reflexivity|]. unfold param_ok, bytes_ok, is_byte. repeat (constructor; cbn; try lia). Qed.
Print Assumptions C132_text.

(** Whatever octets came in as a submit: its log line has the field "tlv", and that shows the parameters of the
    submit and no others. *)
Theorem C132_logged : forall gbd ver seq f s fs, bytes_ok f -> MSubmit_Decode gbd ver seq f = Ok s -> MSubmit_Log s = Ok fs ->
  exists t, value_of "tlv" fs = Some (FS t) /\ shows_tlvs t (params s) /\ forall l, shows_tlvs t l -> l = params s.
Proof.
  intros gbd ver seq f s fs B E L. pose proof (decoded_ok _ _ _ _ _ B E) as P. unfold MSubmit_Log in L. destruct (shown (ms_content s)) as [m|?|]; cbn [bind] in L; [|discriminate L|discriminate L]. injection L as <-.
  exists (tlvs_String (ms_tlv s)). split; [reflexivity|]. assert (X : tlvs_String (ms_tlv s) = tlvs_String (Some (params s))) by (unfold params; destruct (ms_tlv s); reflexivity).
  rewrite X. apply C132_text. exact P.
Qed.
(** So two submits with the same text there have the same optional parameters. *)
Theorem C132_told_apart : forall gbd ver seq f s fs gbd' ver' seq' f' s' fs', bytes_ok f -> MSubmit_Decode gbd ver seq f = Ok s -> MSubmit_Log s = Ok fs ->
  bytes_ok f' -> MSubmit_Decode gbd' ver' seq' f' = Ok s' -> MSubmit_Log s' = Ok fs' -> (value_of "tlv" fs = value_of "tlv" fs' <-> params s = params s').
Proof.
  intros gbd ver seq f s fs gbd' ver' seq' f' s' fs' B E L B' E' L'.
  destruct (C132_logged _ _ _ _ _ _ B E L) as (t & V & S1 & S2). destruct (C132_logged _ _ _ _ _ _ B' E' L') as (t' & V' & S1' & S2'). rewrite V, V'. split.
  - intros [= ->]. apply S2'. exact S1.
  - intros H. unfold MSubmit_Log in L, L'. destruct (shown (ms_content s)) as [m|?|]; cbn [bind] in L; [|discriminate L|discriminate L]. injection L as <-.
    destruct (shown (ms_content s')) as [m'|?|]; cbn [bind] in L'; [|discriminate L'|discriminate L']. injection L' as <-.
    change (Some (FS (tlvs_String (ms_tlv s))) = Some (FS t)) in V. change (Some (FS (tlvs_String (ms_tlv s'))) = Some (FS t')) in V'.
    assert (X : forall s, tlvs_String (ms_tlv s) = tlvs_String (Some (params s))) by (intros x; unfold params; destruct (ms_tlv x); reflexivity).
    rewrite <- V, <- V', !X, H. reflexivity.
Qed.
Example C132_case_logged : let f := repeat 0 105 ++ [3; 65; 66; 67; 0; 0; 0; 0; 0; 0; 0; 0; 0; 9; 0; 1; 3; 16; 0; 0; 2; 171; 0] in bytes_ok f /\
  exists s fs, MSubmit_Decode Some 48 7 f = Ok s /\ MSubmit_Log s = Ok fs /\ params s = [Tlv 9 1 [3]; Tlv 4096 2 [171; 0]] /\
    value_of "tlv" fs = Some (FS (ascii_bytes "[{tag: 9, len: 1, val: 0x03},{tag: 1000, len: 2, val: 0xab00},]")).
Proof.
  split; [unfold bytes_ok, is_byte; apply Forall_app; split; [apply Forall_forall; intros x I; apply repeat_spec in I; lia|repeat constructor; lia]|].
  eexists _, _. split; [vm_compute; reflexivity|]. split; [vm_compute; reflexivity|]. split; vm_compute; reflexivity.
Qed.
Print Assumptions C132_logged.
Print Assumptions C132_told_apart.
