(** * PropMock: properties C77 (simulated incoming messages arrive as configured) and C78
    (simulated rates are exact).  Model: MockModel.v. *)
From Coq Require Import Floats.SpecFloat.
From Verif Require Import Base UtilsModel SpecText SpecWire UtilsProofs OptionsModel FrameModel CmppModel SmgpModel
  CmppBuildProofs PropCmpp2 PropSmgp MockModel.

(** ** C78 Specification *)
(** The rate k/10000 as the configuration reader delivers it: the nearest float64. *)
Definition rate (k : Z) : spec_float := fdiv (f64 k) (f64 10000).
(** Of the 10000 equally likely draws, those on which the simulated event fails. *)
Definition draws : list Z := map Z.of_nat (seq 0 (Z.to_nat 10000)).
Definition fails (p : spec_float) : Z := zlen (filter (fun r => DiceCheck r p) draws).


(** ** C78 Lemmas *)
(** Order of non-negative floats: exponent, then mantissa. *)
Definition below (a b : spec_float) : bool :=
  match a, b with
  | S754_zero _, S754_finite false _ _ => true
  | S754_finite false m e, S754_finite false m' e' => (e <? e') || ((e =? e') && (Zpos m <? Zpos m'))
  | _, _ => false
  end.
Lemma below_next : forall r, 0 <= r < 10000 -> below (rate r) (rate (r + 1)) = true.
Proof.
  intros r H.
  assert (F : forallb (fun r => below (rate r) (rate (r + 1))) draws = true) by (vm_compute; reflexivity).
  rewrite forallb_forall in F. apply F. unfold draws. apply in_map_iff. exists (Z.to_nat r). split; [lia|]. apply in_seq. lia.
Qed.
Lemma below_trans a b c : below a b = true -> below b c = true -> below a c = true.
Proof. destruct a as [| | |[] m e], b as [| | |[] m' e'], c as [| | |[] m2 e2]; cbn [below]; try discriminate; intros; auto; lia. Qed.
Lemma below_rate : forall r r', 0 <= r < r' -> r' <= 10000 -> below (rate r) (rate r') = true.
Proof.
  intros r r' H H'. assert (G : forall n, r + 1 + Z.of_nat n <= 10000 -> below (rate r) (rate (r + 1 + Z.of_nat n)) = true).
  { induction n as [|n IH]; intros L.
    - replace (r + 1 + Z.of_nat 0) with (r + 1) by lia. apply below_next. lia.
    - eapply below_trans; [apply IH; lia|]. replace (r + 1 + Z.of_nat (S n)) with (r + 1 + Z.of_nat n + 1) by lia. apply below_next. lia. }
  specialize (G (Z.to_nat (r' - r - 1))). replace (r + 1 + Z.of_nat (Z.to_nat (r' - r - 1))) with r' in G by lia. apply G. lia.
Qed.
Lemma lt_below p a b : SFltb p a = true -> below a b = true -> SFltb p b = true.
Proof.
  unfold SFltb. destruct p as [s|s| |s m e], a as [| | |[] m1 e1], b as [| | |[] m2 e2]; cbn [below SFcompare]; try discriminate; auto;
    try (destruct s; try discriminate; auto; fail).
  destruct s; [auto|].
  destruct (Z.compare_spec e e1), (Z.compare_spec e e2); try discriminate; auto; intros L B; try (exfalso; lia).
  subst. destruct (Pos.compare_cont Eq m m1) eqn:C1; try discriminate. change (Pos.compare_cont Eq m m1) with (Pos.compare m m1) in C1.
  change (Pos.compare_cont Eq m m2) with (Pos.compare m m2). pose proof (proj1 (Pos.compare_lt_iff _ _) C1) as C3.
  assert (C2 : (m ?= m2)%positive = Lt) by (refine (proj2 (Pos.compare_lt_iff _ _) _); lia). rewrite C2. reflexivity.
Qed.
Lemma lt_of_below a b : below a b = true -> SFltb a b = true /\ SFltb b a = false /\ SFltb a a = false.
Proof.
  unfold SFltb. destruct a as [| | |[] m e], b as [| | |[] m' e']; cbn [below SFcompare]; try discriminate; auto.
  intros B. rewrite Z.compare_refl. change (Pos.compare_cont Eq m m) with (Pos.compare m m). rewrite Pos.compare_refl.
  change (Pos.compare_cont Eq m m') with (Pos.compare m m'). change (Pos.compare_cont Eq m' m) with (Pos.compare m' m).
  destruct (Z.compare_spec e e') as [E|E|E], (Z.compare_spec e' e) as [E'|E'|E'], (Pos.compare_spec m m'), (Pos.compare_spec m' m); repeat split; try lia.
Qed.
Lemma count_above k : forall n, 0 <= k -> zlen (filter (fun r => k <? r) (map Z.of_nat (seq 0 n))) = Z.max 0 (Z.of_nat n - 1 - k).
Proof.
  intros n K. induction n as [|n IH]; [unfold zlen; cbn [length map seq filter]; lia|]. rewrite seq_S, map_app, filter_app, zlen_app, IH. cbn [map filter Nat.add].
  destruct (k <? Z.of_nat n) eqn:E; unfold zlen; cbn [length]; lia.
Qed.

(** ** C78 Theorems *)
(** Whatever the configured number, the event fails on exactly the draws from some threshold
    on. *)
Theorem C78_threshold : forall p, exists t, 0 <= t <= 10000 /\ forall r, 0 <= r < 10000 -> (DiceCheck r p = true <-> t <= r).
Proof.
  intros p.
  assert (U : forall r r', 0 <= r < r' -> r' <= 10000 -> DiceCheck r p = true -> DiceCheck r' p = true).
  { intros r r' H H' D. unfold DiceCheck in *. eapply lt_below; [exact D|]. apply below_rate; assumption. }
  assert (G : forall n, Z.of_nat n <= 10000 -> exists t, 0 <= t <= Z.of_nat n /\ forall r, 0 <= r < Z.of_nat n -> (DiceCheck r p = true <-> t <= r)).
  { induction n as [|n IH]; intros L; [exists 0; split; [lia|intros; lia]|].
    destruct IH as (t & T & H); [lia|].
    destruct (Z.eq_dec t (Z.of_nat n)) as [E|E].
    - destruct (DiceCheck (Z.of_nat n) p) eqn:D.
      + exists t. split; [lia|]. intros r R. destruct (Z.eq_dec r (Z.of_nat n)) as [->|N]; [split; [lia|auto]|apply H; lia].
      + exists (t + 1). split; [lia|]. intros r R. destruct (Z.eq_dec r (Z.of_nat n)) as [->|N]; [rewrite D; split; [discriminate|lia]|].
        rewrite (H r) by lia. split; lia.
    - exists t. split; [lia|]. intros r R. destruct (Z.eq_dec r (Z.of_nat n)) as [->|N]; [|apply H; lia].
      split; [lia|]. intros _. apply (U t); [lia|lia|]. apply H; lia. }
  destruct (G (Z.to_nat 10000)) as (t & T & H); [lia|]. exists t. replace (Z.of_nat (Z.to_nat 10000)) with 10000 in * by lia. auto.
Qed.
(** For a rate with four decimals the event fails exactly on the draws above the rate. *)
Theorem C78_rate_partial : forall k r, 0 <= k <= 10000 -> 0 <= r < 10000 -> (DiceCheck r (rate k) = true <-> k < r).
Proof.
  intros k r K R. unfold DiceCheck. change (fdiv (f64 r) (f64 10000)) with (rate r).
  destruct (Z.lt_trichotomy k r) as [L|[E|L]].
  - destruct (lt_of_below _ _ (below_rate k r ltac:(lia) ltac:(lia))) as (A & _ & _). rewrite A. split; auto.
  - subst r. destruct (lt_of_below _ _ (below_next k ltac:(lia))) as (_ & _ & A). rewrite A. split; [discriminate|lia].
  - destruct (lt_of_below _ _ (below_rate r k ltac:(lia) ltac:(lia))) as (_ & A & _). rewrite A. split; [discriminate|lia].
Qed.
(** REFUTED: of the 10000 draws 9999 - k fail, not 10000 - k: every rate below 1 is exceeded
    by one draw, a rate of 0 included. *)
Theorem C78_refuted : forall k, 0 <= k < 10000 -> fails (rate k) = 9999 - k /\ fails (rate k) <> 10000 - k.
Proof.
  intros k K. assert (E : fails (rate k) = 9999 - k); [|lia]. unfold fails.
  rewrite (filter_ext_in _ (fun r => k <? r)).
  - unfold draws. rewrite count_above by lia. lia.
  - intros r I. unfold draws in I. apply in_map_iff in I as (n & <- & I). apply in_seq in I.
    destruct (DiceCheck (Z.of_nat n) (rate k)) eqn:D.
    + apply C78_rate_partial in D; lia.
    + destruct (k <? Z.of_nat n) eqn:L; auto. exfalso. assert (DiceCheck (Z.of_nat n) (rate k) = true) by (apply C78_rate_partial; lia). congruence.
Qed.
(** A rate of 1 never fails. *)
Theorem C78_one : fails (rate 10000) = 0.
Proof.
  unfold fails. rewrite (filter_ext_in _ (fun _ => false)).
  - assert (E : forall l : list Z, filter (fun _ => false) l = []) by (induction l; auto). rewrite E. reflexivity.
  - intros r I. unfold draws in I. apply in_map_iff in I as (n & <- & I). apply in_seq in I.
    destruct (DiceCheck (Z.of_nat n) (rate 10000)) eqn:D; auto. apply C78_rate_partial in D; lia.
Qed.
(** The shipped rate 0.96 and the rate 0. *)
Example C78_case : DiceCheck 9600 (rate 9600) = false /\ DiceCheck 9601 (rate 9600) = true /\ DiceCheck 0 (rate 0) = false /\ DiceCheck 1 (rate 0) = true
  /\ rate 9600 = S754_finite false 8646911284551352 (-53).
Proof. vm_compute. auto. Qed.
Print Assumptions C78_threshold.
Print Assumptions C78_rate_partial.
Print Assumptions C78_refuted.
Print Assumptions C78_one.

(** ** C77 Specification *)
(** [a] and [b] stand before and after the first place where [sep] occurs in [s]. *)
Definition first_at (sep s a b : bytes) : Prop :=
  s = a ++ sep ++ b /\ forall a' b', s = a' ++ sep ++ b' -> (length a <= length a')%nat.
Definition absent (sep s : bytes) : Prop := forall a b, s <> a ++ sep ++ b.
(** What a configured entry means: number suffix, separator, text. *)
Definition means (content sub text : bytes) : Prop := first_at [95; 44; 95] content sub text.
(** A draw of the index that rand.Intn can make. *)
Definition good_pick (cf : mockconf) (o : mockorc) : Prop := 0 <= mo_pick o < zlen (mk_contents cf).
Definition chosen (cf : mockconf) (o : mockorc) : option bytes := nth_error (mk_contents cf) (Z.to_nat (mo_pick o)).

(** ** C77 Lemmas *)
Lemma starts_spec sep : forall s r, starts sep s = Some r <-> s = sep ++ r.
Proof.
  induction sep as [|a sep IH]; intros s r; cbn [starts app]; [split; congruence|].
  destruct s as [|b s]; [split; discriminate|]. destruct (a =? b) eqn:E.
  - rewrite IH. replace b with a by lia. split; [intros ->; reflexivity|intros X; congruence].
  - split; [discriminate|]. intros X. injection X as X1 X2. lia.
Qed.
Lemma cut_some sep : sep <> [] -> forall s a b, cut sep s = Some (a, b) <-> first_at sep s a b.
Proof.
  intros NE. induction s as [|c s IH]; intros a b; cbn [cut].
  - destruct (starts sep []) as [r|] eqn:S0.
    + apply starts_spec in S0. destruct sep; [congruence|discriminate S0].
    + split; [discriminate|]. intros [E _]. destruct a; [destruct sep; [congruence|discriminate E]|discriminate E].
  - destruct (starts sep (c :: s)) as [r|] eqn:S0.
    + apply starts_spec in S0. split.
      * intros E. injection E as <- <-. split; [exact S0|]. intros. cbn. lia.
      * intros [E M]. specialize (M [] r S0). destruct a; [|cbn in M; lia]. cbn [app] in E. rewrite S0 in E. apply app_inv_head in E. subst. reflexivity.
    + assert (N0 : forall r, c :: s <> sep ++ r) by (intros r X; apply starts_spec in X; congruence).
      destruct (cut sep s) as [[a1 b1]|] eqn:C1.
      * pose proof (proj1 (IH a1 b1) eq_refl) as [E1 M1]. split.
        -- intros E. injection E as <- <-. split; [cbn [app]; rewrite <- E1; reflexivity|]. intros a' b' X. destruct a' as [|x a']; [exfalso; apply (N0 b'); exact X|].
           cbn [app] in X. injection X as _ X. specialize (M1 a' b' X). cbn [length]. lia.
        -- intros [E M]. destruct a as [|x a]; [exfalso; apply (N0 b); exact E|]. cbn [app] in E. injection E as <- E.
           assert (F : Some (a1, b1) = Some (a, b)). { apply IH. split; [exact E|]. intros a' b' X. specialize (M (c :: a') b'). cbn [app length] in M. rewrite <- X in M. specialize (M eq_refl). lia. }
           injection F as -> ->. reflexivity.
      * split; [discriminate|]. intros [E M]. destruct a as [|x a]; [exfalso; apply (N0 b); exact E|]. cbn [app] in E. injection E as <- E.
        assert (F : None = Some (a, b)). { apply IH. split; [exact E|]. intros a' b' X. specialize (M (c :: a') b'). cbn [app length] in M. rewrite <- X in M. specialize (M eq_refl). lia. }
        discriminate F.
Qed.
Lemma first_exists sep s a b : s = a ++ sep ++ b -> exists a1 b1, first_at sep s a1 b1.
Proof.
  assert (G : forall n a b, (length a <= n)%nat -> s = a ++ sep ++ b -> exists a1 b1, first_at sep s a1 b1).
  { induction n as [|n IH]; intros x y L E.
    - exists x, y. split; [exact E|]. intros. lia.
    - destruct (cut sep s) as [[p q]|] eqn:C.
      + destruct sep as [|z sep']; [exists [], s; split; [reflexivity|cbn; intros; lia]|].
        apply cut_some in C; [eauto|discriminate].
      + destruct sep as [|z sep']; [exists [], s; split; [reflexivity|cbn; intros; lia]|].
        (* no first place found: shorter prefix or this one is first *)
        assert (D : (forall a' b', s = a' ++ (z :: sep') ++ b' -> (length x <= length a')%nat) \/ exists a' b', s = a' ++ (z :: sep') ++ b' /\ (length a' < length x)%nat).
        { clear - E. assert (H : forall m, (forall a' b', s = a' ++ (z :: sep') ++ b' -> (m <= length a')%nat) \/ exists a' b', s = a' ++ (z :: sep') ++ b' /\ (length a' < m)%nat).
          { induction m as [|m IHm]; [left; intros; lia|]. destruct IHm as [IHm|(a' & b' & X & L)]; [|right; exists a', b'; split; [exact X|lia]].
            destruct (list_eq_dec Z.eq_dec (firstn (length (z :: sep')) (skipn m s)) (z :: sep')) as [F|F].
            - destruct (Nat.le_gt_cases m (length s)) as [LM|LM].
              + right. exists (firstn m s), (skipn (length (z :: sep')) (skipn m s)). split; [|rewrite firstn_length; lia].
                rewrite <- F at 1. rewrite firstn_skipn, firstn_skipn. reflexivity.
              + rewrite skipn_all2 in F by lia. discriminate F.
            - left. intros a' b' X. specialize (IHm a' b' X). destruct (Nat.eq_dec m (length a')) as [->|]; [|lia]. exfalso. apply F. rewrite X.
              rewrite skipn_app, skipn_all, Nat.sub_diag. cbn [app skipn]. change (z :: sep' ++ b') with ((z :: sep') ++ b'). rewrite firstn_app, firstn_all, Nat.sub_diag, firstn_O, app_nil_r. reflexivity. }
          apply H. }
        destruct D as [D|(a' & b' & X & L')]; [exists x, y; split; assumption|]. apply (IH a' b'); [lia|exact X]. }
  intros E. exact (G (length a) a b (le_n _) E).
Qed.
Lemma cut_none sep : sep <> [] -> forall s, cut sep s = None <-> absent sep s.
Proof.
  intros NE s. split.
  - intros C a b E. destruct (first_exists sep s a b E) as (a1 & b1 & F). apply (cut_some sep NE) in F. congruence.
  - intros A. destruct (cut sep s) as [[a b]|] eqn:C; [|reflexivity]. apply (cut_some sep NE) in C as [E _]. exfalso. exact (A a b E).
Qed.
Lemma split_two s a b : Split s mock_sep = a :: b <-> 
  (absent mock_sep s /\ a = s /\ b = []) \/ (exists rest, first_at mock_sep s a rest /\ b = split_fuel (length s - 1) mock_sep rest).
Proof.
  assert (NE : mock_sep <> []) by discriminate. unfold Split. destruct s as [|c s].
  - cbn [length split_fuel]. split.
    + intros E. injection E as <- <-. left. split; [|auto]. intros x y X. destruct x; discriminate X.
    + intros [(_ & -> & ->)|(rest & [E _] & _)]; [reflexivity|]. destruct a; discriminate E.
  - cbn [length split_fuel]. replace (S (length s) - 1)%nat with (length s) by lia.
    destruct (cut mock_sep (c :: s)) as [[p q]|] eqn:C.
    + apply (cut_some mock_sep NE) in C as F. split.
      * intros E. injection E as <- <-. right. exists q. auto.
      * intros [(A & _)|(rest & F' & ->)]; [exfalso; destruct F as [E _]; exact (A _ _ E)|].
        apply (cut_some mock_sep NE) in F'. rewrite C in F'. injection F' as -> ->. reflexivity.
    + split.
      * intros E. injection E as <- <-. left. split; [|auto]. apply (cut_none mock_sep NE). exact C.
      * intros [(_ & -> & ->)|(rest & F & _)]; [reflexivity|]. apply (cut_some mock_sep NE) in F. congruence.
Qed.
Lemma split_head k s : k <> O \/ absent mock_sep s -> exists r, split_fuel k mock_sep s = (match cut mock_sep s with Some (a, _) => a | None => s end) :: r.
Proof.
  intros H. destruct k as [|k].
  - destruct H as [H|H]; [congruence|]. apply (cut_none mock_sep ltac:(discriminate)) in H. rewrite H. eexists; reflexivity.
  - cbn [split_fuel]. destruct (cut mock_sep s) as [[a b]|]; eexists; reflexivity.
Qed.
Lemma entry_is cf o ac content : mk_enable cf = true -> DiceCheck (mo_dice o) (mk_rate cf) = false -> good_pick cf o -> chosen cf o = Some content ->
  mock_entry cf o (Some ac) = Ok (match cut mock_sep content with
    | None => None
    | Some (sub, rest) => Some (sub, match cut mock_sep rest with Some (t, _) => t | None => rest end) end).
Proof.
  intros E D G C. unfold mock_entry. rewrite E, D. cbn [negb]. unfold good_pick in G. unfold chosen in C.
  destruct (mk_contents cf) as [|c0 cl] eqn:CT; [cbn in G; lia|]. rewrite <- CT in *.
  unfold RandNum. replace (zlen (mk_contents cf) - 0 <=? 0) with false by lia. cbn [bind]. rewrite Z.add_0_r, C.
  replace (mo_pick o <? 0) with false by lia. cbn [bind].
  assert (NE : mock_sep <> []) by discriminate.
  destruct (cut mock_sep content) as [[sub rest]|] eqn:CU.
  - apply (cut_some mock_sep NE) in CU.
    destruct (split_head (length content - 1) rest) as (r & SH).
    { left. destruct CU as [X _]. rewrite X, !app_length. cbn [length mock_sep]. lia. }
    assert (SP : Split content mock_sep = sub :: (match cut mock_sep rest with Some (a, _) => a | None => rest end) :: r)
      by (apply split_two; right; exists rest; auto).
    rewrite SP. reflexivity.
  - apply (cut_none mock_sep NE) in CU. assert (SP : Split content mock_sep = [content]) by (apply split_two; left; auto). rewrite SP. reflexivity.
Qed.
Lemma entry_means cf o ac content sub text : mk_enable cf = true -> DiceCheck (mo_dice o) (mk_rate cf) = false -> good_pick cf o -> chosen cf o = Some content ->
  means content sub text -> absent mock_sep text -> mock_entry cf o (Some ac) = Ok (Some (sub, text)).
Proof.
  intros E D G C M A. rewrite (entry_is cf o ac content E D G C).
  apply (cut_some mock_sep ltac:(discriminate)) in M. rewrite M. apply (cut_none mock_sep ltac:(discriminate)) in A. rewrite A. reflexivity.
Qed.

(** ** C77 Theorems *)
(** Never a crash; a packet is written exactly when simulation is on, the dice allow it, the
    account exists, the protocol is not SGIP and the chosen entry has a separator. *)
Theorem C77_when : forall gbe cf p o cli, (mk_contents cf <> [] -> good_pick cf o) ->
  exists r, mockDelivery gbe cf p o cli = Ok r /\
  (r <> None <-> mk_enable cf = true /\ DiceCheck (mo_dice o) (mk_rate cf) = false /\ cli <> None /\ p <> P_SGIP
                 /\ exists content sub text, chosen cf o = Some content /\ means content sub text).
Proof.
  intros gbe cf p o cli GP. unfold mockDelivery.
  destruct (mk_enable cf) eqn:E; [|exists None; unfold mock_entry; rewrite E; split; [reflexivity|]; split; [congruence|intros (X & _); discriminate X]].
  destruct (DiceCheck (mo_dice o) (mk_rate cf)) eqn:D; [exists None; unfold mock_entry; rewrite E, D; split; [reflexivity|]; split; [congruence|intros (_ & X & _); discriminate X]|].
  destruct cli as [ac|]; [|exists None; unfold mock_entry; rewrite E, D; split; [reflexivity|]; split; [congruence|intros (_ & _ & X & _); congruence]].
  destruct (mk_contents cf) as [|c0 cl] eqn:CT.
  - exists None. unfold mock_entry. rewrite E, D, CT. split; [reflexivity|]. split; [congruence|]. intros (_ & _ & _ & _ & content & sub & text & X & _).
    unfold chosen in X. rewrite CT in X. destruct (Z.to_nat (mo_pick o)); discriminate X.
  - assert (G : good_pick cf o) by (apply GP; congruence). clear GP.
    destruct (chosen cf o) as [content|] eqn:C.
    2:{ exfalso. unfold chosen in C. apply nth_error_None in C. unfold good_pick, zlen in G. lia. }
    rewrite (entry_is cf o ac content E D G C). cbn [bind].
    destruct (cut mock_sep content) as [[sub rest]|] eqn:CU.
    + apply (cut_some mock_sep ltac:(discriminate)) in CU.
      set (t := match cut mock_sep rest with Some (x, _) => x | None => rest end).
      exists (mock_packet gbe p o ac sub t). split; [reflexivity|]. split.
      * intros H. split; [reflexivity|]. split; [reflexivity|]. split; [discriminate|]. split; [intros ->; apply H; reflexivity|].
        exists content, sub, rest. split; [reflexivity|exact CU].
      * intros (_ & _ & _ & P & _). destruct p; [discriminate|congruence|discriminate].
    + exists None. split; [reflexivity|]. split; [congruence|]. intros (_ & _ & _ & _ & c1 & sub & text & X & M). injection X as <-.
      apply (cut_some mock_sep ltac:(discriminate)) in M. congruence.
Qed.
(** SMGP: the client receives sender, display number with the suffix, and the text. *)
Theorem C77_smgp_partial : forall gbe gbd cf o ac content sub text b ver seq',
  mk_enable cf = true -> DiceCheck (mo_dice o) (mk_rate cf) = false -> good_pick cf o -> chosen cf o = Some content ->
  means content sub text -> absent [95; 44; 95] text ->
  is_byte (ac_Version ac) -> zlen (mo_bcd o) = 10 -> fits 14 (mo_now o) -> fits 21 (ac_SmsDisplayNo ac ++ sub) ->
  zlen (runes text) <= 70 -> gbe text = Some b -> gbd b = Some text -> zlen b <= 255 ->
  exists pk d, mockDelivery gbe cf P_SMGP o (Some ac) = Ok (Some pk) /\ over_wire pk (MDeliver_Decode gbd ver seq') = Ok d
    /\ md_srcTermID d = [49;51;51;48;48;48;48;49;49;49;49] /\ md_destTermID d = ac_SmsDisplayNo ac ++ sub /\ md_content d = text
    /\ md_isReport d = 0 /\ md_msgId d = mo_bcd o /\ md_recvTime d = mo_now o.
Proof.
  intros gbe gbd cf o ac content sub text b ver seq' E D G C M A V I N F R B1 B2 L.
  unfold mockDelivery. rewrite (entry_means cf o ac content sub text E D G C M A). cbn [bind mock_packet].
  assert (S0 : 0 <= u32 (mo_seq o) < 2 ^ 32) by (unfold u32; change (2 ^ 32) with 4294967296; apply Z.mod_pos_bound; lia).
  assert (F2 : fits 21 mock_from_smgp) by (split; [cbn; lia|cbn; lia]).
  destruct (C44_built_partial gbe gbd ac mock_from_smgp sub text (u32 (mo_seq o)) (mo_bcd o) (mo_now o) b ver seq' V S0 I N F2 F R B1 B2 L)
    as (_ & _ & d & W & X1 & _ & X2 & X3 & X4 & X5 & _ & X6 & _).
  eexists _, d. split; [reflexivity|]. split; [exact W|]. auto 8.
Qed.
(** CMPP: sender and text (ASCII, fewer than 160 characters) arrive ... *)
Theorem C77_cmpp_partial : forall gbe cf o ac content sub text seq',
  mk_enable cf = true -> DiceCheck (mo_dice o) (mk_rate cf) = false -> good_pick cf o -> chosen cf o = Some content ->
  means content sub text -> absent [95; 44; 95] text -> ac_wf ac -> fits 10 (ac_ServiceId ac) ->
  Forall (fun c => 1 <= c <= 127) text -> zlen text < 160 ->
  exists pk e, mockDelivery gbe cf P_CMPP o (Some ac) = Ok (Some pk) /\ over_wire pk (Delivery_Decode (ac_Version ac) seq') = Ok e
    /\ dl_srcTerminalId e = [49;56;54;48;48;48;48;49;49;49;49] /\ dl_msgContent e = text /\ dl_registeredDelivery e = 0.
Proof.
  intros gbe cf o ac content sub text seq' E D G C M A W FS FA L.
  unfold mockDelivery. rewrite (entry_means cf o ac content sub text E D G C M A). cbn [bind mock_packet].
  assert (F : delivery_fits (NewDelivery ac mock_from_cmpp text sub (ac_ServiceId ac) (u32 (mo_seq o)) (mo_b64 o))).
  { unfold delivery_fits, NewDelivery. destruct (setMsgContent text) as [[f l] t]. cbn [dl_serviceId dl_version dl_srcTerminalId].
    split; [unfold opt_txt; destruct (ac_ServiceId ac); exact FS|]. destruct (is_v3 _); split; cbn; lia. }
  destruct (C36_rest_partial ac mock_from_cmpp text sub (ac_ServiceId ac) (u32 (mo_seq o)) (mo_b64 o) (mo_g o) seq' W F) as (e & X & _ & X1 & _ & _ & _ & X2 & _ & _ & _ & _ & X3).
  exists (Delivery_Encode (mo_g o) (NewDelivery ac mock_from_cmpp text sub (ac_ServiceId ac) (u32 (mo_seq o)) (mo_b64 o))), e.
  split; [reflexivity|]. split; [exact X|]. split; [exact X1|]. split; [apply X3; assumption|exact X2].
Qed.
(** ... but REFUTED: the number it was sent to never does: the client finds the service id in
    its place. *)
Theorem C77_refuted_cmpp : forall gbe cf o ac content sub text seq',
  mk_enable cf = true -> DiceCheck (mo_dice o) (mk_rate cf) = false -> good_pick cf o -> chosen cf o = Some content ->
  means content sub text -> absent [95; 44; 95] text -> ac_wf ac -> fits 10 (ac_ServiceId ac) -> ac_SmsDisplayNo ac ++ sub <> ac_ServiceId ac ->
  exists pk e, mockDelivery gbe cf P_CMPP o (Some ac) = Ok (Some pk) /\ over_wire pk (Delivery_Decode (ac_Version ac) seq') = Ok e
    /\ dl_destId e = ac_ServiceId ac /\ dl_destId e <> ac_SmsDisplayNo ac ++ sub.
Proof.
  intros gbe cf o ac content sub text seq' E D G C M A W FS NE.
  unfold mockDelivery. rewrite (entry_means cf o ac content sub text E D G C M A). cbn [bind mock_packet].
  assert (SID : dl_serviceId (NewDelivery ac mock_from_cmpp text sub (ac_ServiceId ac) (u32 (mo_seq o)) (mo_b64 o)) = ac_ServiceId ac).
  { unfold NewDelivery. destruct (setMsgContent text) as [[f l] t]. cbn [dl_serviceId]. unfold opt_txt. destruct (ac_ServiceId ac); reflexivity. }
  assert (F : delivery_fits (NewDelivery ac mock_from_cmpp text sub (ac_ServiceId ac) (u32 (mo_seq o)) (mo_b64 o))).
  { split; [rewrite SID; exact FS|]. unfold NewDelivery. destruct (setMsgContent text) as [[f l] t]. cbn [dl_version dl_srcTerminalId]. destruct (is_v3 _); split; cbn; lia. }
  destruct (C36_refuted ac mock_from_cmpp text sub (ac_ServiceId ac) (u32 (mo_seq o)) (mo_b64 o) (mo_g o) seq' W F) as (e & X & X1 & _ & _).
  rewrite SID in X1.
  exists (Delivery_Encode (mo_g o) (NewDelivery ac mock_from_cmpp text sub (ac_ServiceId ac) (u32 (mo_seq o)) (mo_b64 o))), e.
  split; [reflexivity|]. split; [exact X|]. split; [exact X1|]. rewrite X1. intros Y. apply NE. symmetry. exact Y.
Qed.
(** REFUTED: a text that itself contains the separator is cut there, in every protocol. *)
Theorem C77_refuted_cut : forall gbe cf p o ac content sub text a b,
  mk_enable cf = true -> DiceCheck (mo_dice o) (mk_rate cf) = false -> good_pick cf o -> chosen cf o = Some content ->
  means content sub text -> first_at [95; 44; 95] text a b ->
  mockDelivery gbe cf p o (Some ac) = Ok (mock_packet gbe p o ac sub a) /\ (length a + 3 <= length text)%nat.
Proof.
  intros gbe cf p o ac content sub text a b E D G C M F. split.
  - unfold mockDelivery. rewrite (entry_is cf o ac content E D G C).
    apply (cut_some mock_sep ltac:(discriminate)) in M. rewrite M. apply (cut_some mock_sep ltac:(discriminate)) in F. rewrite F. reflexivity.
  - destruct F as [-> _]. rewrite !app_length. cbn [length]. lia.
Qed.
(** The shipped entry 0010_,_hello world, and one with a second separator. *)
Example C77_case :
  let hello := [104;101;108;108;111;32;119;111;114;108;100] in
  let cf := MockConf true (rate 1000) [[48;48;49;48] ++ mock_sep ++ hello; [55] ++ mock_sep ++ [65] ++ mock_sep ++ [66]] in
  let o k := MockOrc 999 k 3 77 (repeat 1 10) (repeat 50 14) 1 in
  mock_entry cf (o 0) (Some ac_demo20) = Ok (Some ([48;48;49;48], hello))
  /\ mock_entry cf (o 1) (Some ac_demo20) = Ok (Some ([55], [65]))
  /\ good_pick cf (o 0) /\ DiceCheck 999 (rate 1000) = false
  /\ match mockDelivery (fun b => Some b) cf P_SMGP (o 0) (Some ac_demo20) with
     | Ok (Some pk) => (d <- over_wire pk (MDeliver_Decode (fun b => Some b) 32 3) ;; Ok (md_content d, md_destTermID d)) = Ok (hello, ac_SmsDisplayNo ac_demo20 ++ [48;48;49;48])
     | _ => False end.
Proof. cbv zeta. split; [vm_compute; reflexivity|]. split; [vm_compute; reflexivity|]. split; [unfold good_pick; cbn; lia|]. vm_compute. auto. Qed.
Print Assumptions C77_when.
Print Assumptions C77_smgp_partial.
Print Assumptions C77_cmpp_partial.
Print Assumptions C77_refuted_cmpp.
Print Assumptions C77_refuted_cut.
