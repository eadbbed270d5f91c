(** * C112: a client session in use by several goroutines while one of them closes it *)
From Verif Require Import Base OptionsModel CmppModel SgipModel SmgpModel FrameModel ClientModel UseModel.

(** ** Specification *)
(** The goroutines the client has for a session of protocol [p]. *)
Inductive code (p : proto) : prog -> Prop :=
| c_sender l : code p (sender p l)
| c_receiver b l : code p (receiver p b l)
| c_upkeep l : code p (upkeep p l)
| c_hooker : code p hooker.
(** Once the session is marked closing, its connection shut and its field con cleared, the goroutine
    could still come to use the connection or the account: no look at the session lies between. *)
Inductive exposed : prog -> Prop :=
| ex_deref k : exposed (PDeref k)
| ex_write a b : exposed (PWrite a b)
| ex_read a b : exposed (PRead a b)
| ex_shut k : exposed (PShut k)
| ex_no f a b : exposed b -> exposed (PChk f a b)
| ex_late a b : exposed a -> exposed (PChk FAc a b)          (* it has seen the connection already *)
| ex_got a b : exposed a -> exposed (PTake a b)
| ex_none a b : exposed b -> exposed (PTake a b)
| ex_err a b : exposed b -> exposed (PWait a b)              (* a blocked Read fails when the connection is closed *)
| ex_lock k : exposed k -> exposed (PLock k)
| ex_unlock k : exposed k -> exposed (PUnlock k)
| ex_mark k : exposed k -> exposed (PMark k)
| ex_signal k : exposed k -> exposed (PSignal k)
| ex_nilcon k : exposed k -> exposed (PNilCon k)
| ex_nilac k : exposed k -> exposed (PNilAc k).
Definition is_at (x : ustate) (t : nat) (q : prog) : Prop := nth_error (u_th x) t = Some q.

(** ** Proofs *)
Fixpoint exp (q : prog) : bool :=
  match q with
  | Ret => false
  | PChk f a b => exp b || match f with FAc => exp a | _ => false end
  | PTake a b => exp a || exp b
  | PDeref _ | PWrite _ _ | PRead _ _ | PShut _ => true
  | PWait _ b => exp b
  | PLock k | PUnlock k | PMark k | PSignal k | PNilCon k | PNilAc k => exp k
  end.
Lemma exp_iff q : exposed q <-> exp q = true.
Proof.
  split.
  - induction 1; cbn; auto; try (rewrite IHexposed; auto using orb_true_r).
  - induction q; cbn; intros E; try discriminate; try (constructor; auto; fail).
    + apply orb_true_iff in E as [E|E]; [apply ex_no; auto|]. destruct f; try discriminate. apply ex_late; auto.
    + apply orb_true_iff in E as [E|E]; [apply ex_got; auto|apply ex_none; auto].
Qed.
Lemma exp_not q : ~ exposed q <-> exp q = false.
Proof. rewrite exp_iff. destruct (exp q); split; intros; congruence. Qed.

Inductive wf : prog -> Prop :=
| wf_ret : wf Ret
| wf_chk f a b : f <> FOpen -> wf a -> wf b -> exp b = false -> wf (PChk f a b)
| wf_open k : wf k -> exp k = false -> wf (close k)
| wf_take a b : wf a -> wf b -> exp a = false -> exp b = false -> wf (PTake a b)
| wf_deref k : wf k -> wf (PDeref k)
| wf_write a b : wf a -> wf b -> wf (PWrite a b)
| wf_read a b : wf a -> wf b -> exp b = false -> wf (PRead a b)
| wf_wait a b : wf a -> wf b -> exp b = false -> wf (PWait a b)
| wf_count k : wf k -> exp k = false -> wf (PLock (PUnlock k))
| wf_lock k : wf k -> exp k = false -> wf (PLock (PMark (PShut (PSignal (PNilCon (PNilAc (PUnlock k))))))).
(** Holding the lock. *)
Inductive ins : prog -> Prop :=
| in_unlock k : wf k -> exp k = false -> ins (PUnlock k)
| in_mark k : wf k -> exp k = false -> ins (PMark (PShut (PSignal (PNilCon (PNilAc (PUnlock k))))))
| in_shut k : wf k -> exp k = false -> ins (PShut (PSignal (PNilCon (PNilAc (PUnlock k)))))
| in_signal k : wf k -> exp k = false -> ins (PSignal (PNilCon (PNilAc (PUnlock k))))
| in_nilcon k : wf k -> exp k = false -> ins (PNilCon (PNilAc (PUnlock k)))
| in_nilac k : wf k -> exp k = false -> ins (PNilAc (PUnlock k)).
Local Hint Constructors wf ins : core.

Lemma exp_close k : exp (close k) = exp k.
Proof. cbn. apply orb_false_r. Qed.
Lemma exp_health p i a b : exp (HealthCheck p i a b) = exp b.
Proof. unfold HealthCheck. cbn. apply orb_false_r. Qed.
Lemma wf_health p i a b : wf a -> wf b -> exp b = false -> wf (HealthCheck p i a b).
Proof. intros A B E. unfold HealthCheck. repeat apply wf_chk; auto; try discriminate; cbn; rewrite ?E, ?orb_false_r; auto. destruct p, i; auto. Qed.
Lemma wf_writes n k : wf k -> exp k = false -> wf (writes n k).
Proof. intros W E. induction n; cbn [writes]; auto. Qed.
Lemma sender_ok p l : wf (sender p l) /\ exp (sender p l) = false.
Proof.
  induction l as [|[i n] l [W E]]; [split; auto|]. cbn [sender]. rewrite exp_health. split; auto.
  apply wf_health; auto. apply wf_deref, wf_writes; unfold AddCounter; auto.
Qed.
Lemma onTraffic_wf j bad k : wf k -> exp k = false -> wf (onTraffic j bad k).
Proof. intros W E. destruct j, bad; cbn [onTraffic]; auto 6. Qed.
Lemma receiver_ok p b l : wf (receiver p b l) /\ exp (receiver p b l) = false.
Proof.
  assert (R : wf (close Ret)) by auto.
  induction l as [|r l [W E]]; cbn [receiver].
  - split; [|reflexivity]. apply wf_take; auto. apply wf_health; auto.
  - split; [|reflexivity]. apply wf_take; auto. apply wf_health; auto. apply wf_read; auto.
    pose proof (onTraffic_wf (job_of p (rd_cmd r)) (rd_bad r) _ W E) as O. destruct (rd_legal r), (rd_body r); auto.
Qed.
Lemma upkeep_ok p l : wf (upkeep p l) /\ exp (upkeep p l) = false.
Proof.
  induction l as [|[i s] l [W E]]; cbn [upkeep]; [split; auto|]. rewrite exp_health.
  destruct s; rewrite ?exp_close; (split; [apply wf_health; rewrite ?exp_close; auto|auto]).
Qed.
Lemma code_ok p q : code p q -> wf q /\ exp q = false.
Proof. intros [l|b l|l|]; [apply sender_ok|apply receiver_ok|apply upkeep_ok|split; [apply wf_open; auto|reflexivity]]. Qed.

Definition inside (q : prog) : bool := match q with PMark _ | PShut _ | PSignal _ | PNilCon _ | PNilAc _ | PUnlock _ => true | _ => false end.
Definition marked (q : prog) : bool := match q with PShut _ | PSignal _ | PNilCon _ | PNilAc _ => true | _ => false end.
Definition shutted (q : prog) : bool := match q with PSignal _ | PNilCon _ | PNilAc _ => true | _ => false end.
Record inv (x : ustate) : Prop := {
  i_wf : forall t q, is_at x t q -> wf q \/ ins q;
  i_lock : forall t q, is_at x t q -> inside q = true -> u_lock x = Some t;
  i_mark : forall t q, is_at x t q -> marked q = true -> u_stat x = CClosing;
  i_shut : forall t q, is_at x t q -> shutted q = true -> u_shut x = 1;
  i_sig : forall t q, is_at x t q -> match q with PSignal _ | PNilCon _ => u_con x = true | PNilAc _ => u_con x = false | _ => True end;
  i_con : u_con x = true -> u_ac x = true;
  i_gone : u_con x = false -> u_stat x = CClosing /\ u_shut x = 1;
  i_range : u_shut x = 0 \/ u_shut x = 1 /\ u_stat x = CClosing /\ (u_con x = true -> exists t q, is_at x t q /\ shutted q = true);
  i_ac : u_ac x = false -> u_con x = false;
  i_tok : 0 <= u_tok x /\ (0 < u_tok x -> u_stat x = CClosing);
  i_stat : u_stat x = CLogin \/ u_stat x = CClosing }.

Lemma put_at x t q0 q u : is_at x t q0 -> nth_error (put x t q) u = if Nat.eqb u t then Some q else nth_error (u_th x) u.
Proof.
  intros N. assert (L : (t < length (u_th x))%nat) by (apply nth_error_Some; unfold is_at in N; congruence). unfold put. destruct (Nat.eqb_spec u t) as [->|NE].
  - rewrite nth_error_app2 by (rewrite firstn_length; lia). rewrite firstn_length, Nat.min_l by lia. rewrite Nat.sub_diag. reflexivity.
  - destruct (Nat.lt_ge_cases u t) as [H|H].
    + rewrite nth_error_app1 by (rewrite firstn_length; lia). clear L N NE. revert u t H. induction (u_th x) as [|a l IH]; intros [|u] [|t] H; try lia; cbn; auto. apply IH. lia.
    + rewrite nth_error_app2 by (rewrite firstn_length; lia). rewrite firstn_length, Nat.min_l by lia. destruct (u - t)%nat as [|d] eqn:D; [lia|]. cbn [app nth_error].
      replace u with (S t + d)%nat by lia. clear. revert d. generalize (S t) as k. induction (u_th x) as [|a l IH]; intros [|k] d; cbn [skipn nth_error Nat.add]; auto; destruct d; reflexivity.
Qed.
Lemma at_put st co ac sh tk lk x t q0 q u r : is_at x t q0 -> is_at (UState st co ac sh tk lk (put x t q)) u r -> (u = t /\ r = q) \/ (u <> t /\ is_at x u r).
Proof. intros N. unfold is_at at 1. cbn [u_th]. rewrite (put_at x t q0 q u N). destruct (Nat.eqb_spec u t) as [->|NE]; [injection 1; auto|auto]. Qed.
Lemma at_me st co ac sh tk lk x t q0 q : is_at x t q0 -> is_at (UState st co ac sh tk lk (put x t q)) t q.
Proof. intros N. unfold is_at. cbn [u_th]. rewrite (put_at x t q0 q t N), Nat.eqb_refl. reflexivity. Qed.
Lemma at_other st co ac sh tk lk x t q0 q u r : is_at x t q0 -> u <> t -> is_at x u r -> is_at (UState st co ac sh tk lk (put x t q)) u r.
Proof. intros N NE H. unfold is_at. cbn [u_th]. rewrite (put_at x t q0 q u N). apply Nat.eqb_neq in NE. rewrite NE. exact H. Qed.

Lemma inv_start p ps : (forall q, In q ps -> code p q) -> inv (ustart ps).
Proof.
  intros C. assert (W : forall t q, is_at (ustart ps) t q -> code p q) by (intros t q H; apply C; eapply nth_error_In; exact H).
  assert (F : forall t q, is_at (ustart ps) t q -> inside q = false) by (intros t q H; destruct (W _ _ H) as [[|[i n] l]|b [|r l]|[|[i n] l]|]; reflexivity).
  assert (G : forall t q, is_at (ustart ps) t q -> marked q = false) by (intros t q H; specialize (F _ _ H); destruct q; auto).
  assert (M : forall t q, is_at (ustart ps) t q -> shutted q = false) by (intros t q H; specialize (F _ _ H); destruct q; auto).
  constructor; cbn; auto; try lia; try discriminate.
  - intros t q H. left. apply (code_ok p), (W _ _ H).
  - intros t q H E. specialize (F _ _ H). congruence.
  - intros t q H E. specialize (G _ _ H). congruence.
  - intros t q H E. specialize (M _ _ H). congruence.
  - intros t q H. specialize (M _ _ H). destruct q; auto; discriminate.
Qed.

Lemma wf_out q : wf q -> inside q = false.
Proof. destruct 1; reflexivity. Qed.
(** A step of goroutine [t] that changes its place only. *)
Lemma inv_goes x t q0 q : inv x -> is_at x t q0 -> wf q -> inside q0 = false -> inv (goes x t q).
Proof.
  intros V N W A. unfold goes. pose proof (wf_out _ W) as B.
  assert (M : marked q = false) by (destruct q; auto; discriminate). assert (S1 : shutted q = false) by (destruct q; auto; discriminate).
  destruct V. constructor; cbn [u_stat u_con u_ac u_shut u_tok u_lock]; auto.
  - intros u r H. apply (at_put _ _ _ _ _ _ _ _ _ _ _ _ N) in H as [[-> ->]|[NE H]]; eauto.
  - intros u r H E. apply (at_put _ _ _ _ _ _ _ _ _ _ _ _ N) in H as [[-> ->]|[NE H]]; [congruence|eauto].
  - intros u r H E. apply (at_put _ _ _ _ _ _ _ _ _ _ _ _ N) in H as [[-> ->]|[NE H]]; [congruence|eauto].
  - intros u r H E. apply (at_put _ _ _ _ _ _ _ _ _ _ _ _ N) in H as [[-> ->]|[NE H]]; [congruence|eauto].
  - intros u r H. apply (at_put _ _ _ _ _ _ _ _ _ _ _ _ N) in H as [[-> ->]|[NE H]]; [destruct q; auto; discriminate|exact (i_sig0 _ _ H)].
  - destruct i_range0 as [H|(H1 & H2 & H3)]; [auto|right; repeat split; auto]. intros C. destruct (H3 C) as (w & r & H & E). exists w, r. split; auto.
    apply at_other with q0; auto. intros ->. assert (r = q0) by (unfold is_at in *; congruence). subst. destruct q0; discriminate.
Qed.

Lemma marked_in q : marked q = true -> inside q = true. Proof. destruct q; auto. Qed.
Lemma shutted_in q : shutted q = true -> inside q = true. Proof. destruct q; auto. Qed.
Ltac spl N := match goal with H : is_at (UState _ _ _ _ _ _ (put _ _ _)) _ _ |- _ => apply (at_put _ _ _ _ _ _ _ _ _ _ _ _ N) in H as [[-> ->]|[NE H]] end.
Lemma inv_step x e x' : inv x -> ustep x e = Ok x' -> inv x'.
Proof.
  intros V E. destruct e as [t ok]. unfold ustep in E. cbn [fst snd] in E. set (good := ok && (u_shut x =? 0)) in *.
  destruct (nth_error (u_th x) t) as [q|] eqn:N; [|injection E as <-; auto]. change (is_at x t q) in N.
  destruct (i_wf _ V _ _ N) as [W|W].
  - destruct W as [|f a b F A B X|k A X|a b A B X Y|k A|a b A B|a b A B X|a b A B X|k A X|k A X]; cbn [close] in E.
    + injection E as <-; auto.
    + injection E as <-. eapply inv_goes; eauto. destruct (holds x f); auto.
    + injection E as <-. eapply (inv_goes _ _ (close k)); auto. destruct (u_stat x); auto.
    + assert (G : inv (goes x t b)) by (eapply inv_goes; eauto). assert (G2 : inv (goes x t a)) by (eapply inv_goes; eauto).
      destruct (Z.ltb_spec 0 (u_tok x)) as [L|L]; injection E as <-; auto.
      destruct V, G2. constructor; cbn in *; auto. split; [lia|]. intros; apply i_tok0; lia.
    + destruct (u_ac x); [|discriminate]. injection E as <-. eapply inv_goes; eauto.
    + destruct (u_con x); [|discriminate]. injection E as <-. eapply inv_goes; eauto. destruct good; auto.
    + destruct (u_con x); [|discriminate]. injection E as <-. eapply inv_goes; eauto.
    + injection E as <-. eapply inv_goes; eauto. destruct good; auto.
    + destruct (u_lock x) as [h|] eqn:L; [injection E as <-; auto|]. injection E as <-.
      assert (O : forall u r, is_at x u r -> inside r = false) by (intros u r H; destruct (inside r) eqn:D; auto; rewrite (i_lock _ V _ _ H D) in L; discriminate).
      destruct V; constructor; cbn [u_stat u_con u_ac u_shut u_tok u_lock]; auto.
      * intros u r H; spl N; eauto.
      * intros u r H D; spl N; [auto|]. rewrite (O _ _ H) in D; discriminate.
      * intros u r H D; spl N; [discriminate|eauto].
      * intros u r H D; spl N; [discriminate|eauto].
      * intros u r H; spl N; [exact I|exact (i_sig0 _ _ H)].
      * destruct i_range0 as [H|(H1 & H2 & H3)]; [auto|right; repeat split; auto]. intros C. destruct (H3 C) as (w & r & H & D). apply shutted_in in D. rewrite (O _ _ H) in D; discriminate.
    + destruct (u_lock x) as [h|] eqn:L; [injection E as <-; auto|]. injection E as <-.
      assert (O : forall u r, is_at x u r -> inside r = false) by (intros u r H; destruct (inside r) eqn:D; auto; rewrite (i_lock _ V _ _ H D) in L; discriminate).
      destruct V; constructor; cbn [u_stat u_con u_ac u_shut u_tok u_lock]; auto.
      * intros u r H; spl N; eauto.
      * intros u r H D; spl N; [auto|]. rewrite (O _ _ H) in D; discriminate.
      * intros u r H D; spl N; [discriminate|eauto].
      * intros u r H D; spl N; [discriminate|eauto].
      * intros u r H; spl N; [exact I|exact (i_sig0 _ _ H)].
      * destruct i_range0 as [H|(H1 & H2 & H3)]; [auto|right; repeat split; auto]. intros C. destruct (H3 C) as (w & r & H & D). apply shutted_in in D. rewrite (O _ _ H) in D; discriminate.
  - assert (L : u_lock x = Some t) by (apply (i_lock _ V _ _ N); destruct W; reflexivity).
    assert (O : forall u r, u <> t -> is_at x u r -> inside r = false) by (intros u r NE H; destruct (inside r) eqn:D; auto; rewrite (i_lock _ V _ _ H D) in L; congruence).
    assert (O1 : forall u r, u <> t -> is_at x u r -> marked r = false) by (intros u r NE H; destruct (marked r) eqn:D; auto; apply marked_in in D; rewrite (O _ _ NE H) in D; discriminate).
    assert (O2 : forall u r, u <> t -> is_at x u r -> shutted r = false) by (intros u r NE H; destruct (shutted r) eqn:D; auto; apply shutted_in in D; rewrite (O _ _ NE H) in D; discriminate).
    assert (O3 : forall u r P Q, u <> t -> is_at x u r -> match r with PSignal _ | PNilCon _ => P | PNilAc _ => Q | _ => True end) by (intros u r P Q NE H; specialize (O2 _ _ NE H); destruct r; auto; discriminate).
    pose proof (i_mark _ V _ _ N) as M1. pose proof (i_shut _ V _ _ N) as M2. pose proof (i_sig _ V _ _ N) as M3. pose proof (i_range _ V) as M4.
    assert (K : u_con x = true -> shutted q = false -> u_shut x = 0).
    { intros C D. destruct M4 as [H|(H1 & H2 & H3)]; auto. destruct (H3 C) as (w & r & H & D2). destruct (Nat.eq_dec w t) as [->|NE]; [|rewrite (O2 _ _ NE H) in D2; discriminate]. assert (r = q) by (unfold is_at in *; congruence). congruence. }
    destruct V. destruct W as [k A X|k A X|k A X|k A X|k A X|k A X]; cbn [marked shutted] in *.
    + injection E as <-. pose proof (wf_out _ A) as B. constructor; cbn [u_stat u_con u_ac u_shut u_tok u_lock]; auto.
      * intros u r H; spl N; eauto.
      * intros u r H D; spl N; [congruence|]. rewrite (O _ _ NE H) in D; discriminate.
      * intros u r H D; spl N; [apply marked_in in D; congruence|eauto].
      * intros u r H D; spl N; [apply shutted_in in D; congruence|eauto].
      * intros u r H; spl N; [destruct k; auto; discriminate|exact (i_sig0 _ _ H)].
      * destruct (u_con x) eqn:C; [left; auto|]. destruct (i_gone0 eq_refl). right; repeat split; auto; discriminate.
    + injection E as <-. constructor; cbn [u_stat u_con u_ac u_shut u_tok u_lock]; auto.
      * intros u r H; spl N; eauto.
      * intros u r H D; spl N; [auto|]. rewrite (O _ _ NE H) in D; discriminate.
      * intros u r H D; spl N; [discriminate|eauto].
      * intros u r H; spl N; [exact I|exact (i_sig0 _ _ H)].
      * intros C. destruct (i_gone0 C); auto.
      * destruct (u_con x) eqn:C; [left; auto|]. destruct (i_gone0 eq_refl). right; repeat split; auto; discriminate.
      * split; [lia|auto].
    + destruct (u_con x) eqn:C; [|discriminate]. injection E as <-. specialize (M1 eq_refl). rewrite (K eq_refl eq_refl). constructor; cbn [u_stat u_con u_ac u_shut u_tok u_lock]; auto.
      * intros u r H; spl N; eauto.
      * intros u r H D; spl N; [auto|]. rewrite (O _ _ NE H) in D; discriminate.
      * intros u r H; spl N; [reflexivity|apply (O3 _ _ _ _ NE H)].
      * right. split; [lia|]. split; [auto|]. intros _. exists t. eexists. split; [eapply at_me; eauto|reflexivity].
    + destruct (u_tok x <? 1) eqn:T0; [|injection E as <-; constructor; auto]. injection E as <-. specialize (M1 eq_refl). specialize (M2 eq_refl).
      constructor; cbn [u_stat u_con u_ac u_shut u_tok u_lock]; auto.
      * intros u r H; spl N; eauto.
      * intros u r H D; spl N; [auto|]. rewrite (O _ _ NE H) in D; discriminate.
      * intros u r H; spl N; [auto|apply (O3 _ _ _ _ NE H)].
      * right. split; [lia|]. split; [auto|]. intros _. exists t. eexists. split; [eapply at_me; eauto|reflexivity].
      * split; [lia|auto].
    + injection E as <-. specialize (M1 eq_refl). specialize (M2 eq_refl). constructor; cbn [u_stat u_con u_ac u_shut u_tok u_lock]; auto; try discriminate.
      * intros u r H; spl N; eauto.
      * intros u r H D; spl N; [auto|]. rewrite (O _ _ NE H) in D; discriminate.
      * intros u r H; spl N; [reflexivity|apply (O3 _ _ _ _ NE H)].
      * right. split; [auto|]. split; [auto|]. discriminate.
    + injection E as <-. specialize (M1 eq_refl). specialize (M2 eq_refl). constructor; cbn [u_stat u_con u_ac u_shut u_tok u_lock]; auto.
      * intros u r H; spl N; eauto.
      * intros u r H D; spl N; [auto|]. rewrite (O _ _ NE H) in D; discriminate.
      * intros u r H; spl N; [exact I|apply (O3 _ _ _ _ NE H)].
      * congruence.
      * right. split; [auto|]. split; [auto|]. congruence.
Qed.
Lemma inv_run es : forall x x', inv x -> urun x es = Ok x' -> inv x'.
Proof. induction es as [|e es IH]; intros x x' V E; cbn [urun] in E; [injection E as <-; auto|]. destruct (ustep x e) as [x1| |] eqn:H; cbn [bind] in E; try discriminate. eauto using inv_step. Qed.
Lemma urun_app l1 : forall l2 x, urun x (l1 ++ l2) = x1 <- urun x l1 ;; urun x1 l2.
Proof. induction l1 as [|e l1 IH]; intros l2 x; cbn [urun app bind]; auto. destruct (ustep x e); cbn [bind]; auto. Qed.

(** Before con is cleared nothing panics. *)
Lemma open_step x e : inv x -> u_con x = true -> exists x', ustep x e = Ok x'.
Proof.
  intros V C. pose proof (i_con _ V C) as A. unfold ustep. destruct (nth_error (u_th x) (fst e)) as [q|]; [|eauto].
  destruct q; rewrite ?C, ?A; eauto; [destruct (0 <? u_tok x)|destruct (u_lock x)|destruct (u_tok x <? 1)]; eauto.
Qed.
(** After it, nobody exposed: nothing panics and nobody becomes exposed. *)
Definition safe (x : ustate) : Prop := inv x /\ u_con x = false /\ forall t q, is_at x t q -> exp q = false.
Lemma safe_step x e : safe x -> exists x', ustep x e = Ok x' /\ safe x'.
Proof.
  intros (V & C & F). destruct (i_gone _ V C) as [G D]. destruct e as [t ok].
  assert (E : exists x', ustep x (t, ok) = Ok x').
  { unfold ustep. cbn [fst snd]. destruct (nth_error (u_th x) t) as [q|] eqn:N; [|eauto]. specialize (F _ _ N).
    destruct q; cbn in F; try discriminate; eauto; [destruct (0 <? u_tok x)|destruct (u_lock x)|destruct (u_tok x <? 1)]; eauto. }
  destruct E as [x' E]. exists x'. split; auto. split; [eapply inv_step; eauto|].
  unfold ustep in E. cbn [fst snd] in E. rewrite D in E. change (1 =? 0) with false in E. rewrite andb_false_r in E.
  destruct (nth_error (u_th x) t) as [q|] eqn:N; [|injection E as <-; auto]. pose proof (F _ _ N) as FN. change (is_at x t q) in N.
  assert (S1 : forall st co ac sh tk lk r, co = false -> exp r = false -> u_con (UState st co ac sh tk lk (put x t r)) = false /\
     forall u q1, is_at (UState st co ac sh tk lk (put x t r)) u q1 -> exp q1 = false).
  { intros st co ac sh tk lk r Cc Er. split; auto. intros u q1 H. spl N; auto. exact (F _ _ H). }
  destruct q; cbn [exp] in FN; try discriminate.
  - injection E as <-. auto.
  - apply orb_false_iff in FN as [F1 F2]. injection E as <-. apply S1; auto. destruct f; cbn [holds]; rewrite ?G, ?C; auto. destruct (u_ac x); auto.
  - apply orb_false_iff in FN as [F1 F2]. destruct (0 <? u_tok x); injection E as <-; apply S1; auto.
  - injection E as <-. apply S1; auto.
  - destruct (u_lock x); injection E as <-; auto; apply S1; auto.
  - injection E as <-. apply S1; auto.
  - injection E as <-. apply S1; auto.
  - destruct (u_tok x <? 1); injection E as <-; auto; apply S1; auto.
  - injection E as <-. apply S1; auto.
  - injection E as <-. apply S1; auto.
Qed.
Lemma safe_run es : forall x, safe x -> exists x', urun x es = Ok x' /\ safe x'.
Proof. induction es as [|e es IH]; intros x F; cbn [urun]; [eauto|]. destruct (safe_step x e F) as (x1 & -> & F1). cbn [bind]. eauto. Qed.
(** The step that clears con. *)
Lemma clear_step x u ok k : inv x -> is_at x u (PNilCon k) -> (forall t q, t <> u -> is_at x t q -> exp q = false) ->
  exists x', ustep x (u, ok) = Ok x' /\ safe x'.
Proof.
  intros V N F. eexists. split; [unfold ustep; cbn [fst snd]; rewrite N; reflexivity|]. split; [|split].
  - eapply inv_step; [exact V|]. instantiate (1 := (u, ok)). unfold ustep; cbn [fst snd]; rewrite N; reflexivity.
  - reflexivity.
  - intros t q H. spl N; eauto. destruct (i_wf _ V _ _ N) as [W|W]; inversion W; subst; cbn. assumption.
Qed.
Lemma keeps_con x e x' : ustep x e = Ok x' -> u_con x = true -> (forall k, ~ is_at x (fst e) (PNilCon k)) -> u_con x' = true.
Proof.
  intros E C N. unfold ustep in E. destruct (nth_error (u_th x) (fst e)) as [q|] eqn:Q; [|congruence].
  assert (M : forall k, q <> PNilCon k) by (intros k ->; apply (N k); exact Q).
  destruct q; try (injection E as <-; cbn [goes u_con]; auto; fail); try congruence.
  - destruct (0 <? u_tok x); injection E as <-; auto.
  - destruct (u_ac x); [injection E as <-; auto|discriminate].
  - destruct (u_con x) eqn:D; [injection E as <-; cbn [goes u_con]; congruence|discriminate].
  - destruct (u_con x) eqn:D; [injection E as <-; cbn [goes u_con]; congruence|discriminate].
  - destruct (u_lock x); injection E as <-; auto.
  - destruct (u_con x) eqn:D; [injection E as <-; cbn [goes u_con]; congruence|discriminate].
  - destruct (u_tok x <? 1); injection E as <-; auto.
Qed.

(** What holds of a run in which con is cleared only while nobody else is exposed: it never crashes. *)
Theorem C112_partial : forall p ps es, (forall q, In q ps -> code p q) ->
  (forall es1 e es2 x k, es = es1 ++ e :: es2 -> urun (ustart ps) es1 = Ok x -> is_at x (fst e) (PNilCon k) ->
     forall t q, t <> fst e -> is_at x t q -> ~ exposed q) ->
  exists x, urun (ustart ps) es = Ok x.
Proof.
  intros p ps es C0 H. pose proof (inv_start _ _ C0) as V0. assert (K : u_con (ustart ps) = true) by reflexivity.
  revert V0 K H. generalize (ustart ps) as x0. clear C0. induction es as [|e es IH]; intros x0 V0 K H; cbn [urun]; [eauto|].
  destruct (nth_error (u_th x0) (fst e)) as [q|] eqn:N.
  - destruct (match q with PNilCon _ => true | _ => false end) eqn:Q.
    + destruct q; try discriminate. destruct e as [u ok]. destruct (clear_step x0 u ok q V0 N) as (x1 & -> & S1).
      { intros t r NE R. apply exp_not. eapply (H [] (u, ok) es x0); cbn; eauto. }
      cbn [bind]. destruct (safe_run es x1 S1) as (x2 & E2 & _). eauto.
    + destruct (open_step x0 e V0 K) as [x1 E1]. rewrite E1. cbn [bind]. apply IH.
      * eapply inv_step; eauto.
      * eapply keeps_con; eauto. intros k R. unfold is_at in R. rewrite N in R. injection R as ->. discriminate.
      * intros es1 e1 es2 x k -> R. apply (H (e :: es1) e1 es2 x k eq_refl). cbn [urun]. rewrite E1. exact R.
  - assert (E1 : ustep x0 e = Ok x0) by (unfold ustep; rewrite N; reflexivity). rewrite E1. cbn [bind]. apply IH; auto.
    intros es1 e1 es2 x k -> R. apply (H (e :: es1) e1 es2 x k eq_refl). cbn [urun]. rewrite E1. exact R.
Qed.
Print Assumptions C112_partial.

(** ** The converse *)
Lemma crash x u k : inv x -> is_at x u (PNilAc (PUnlock k)) -> u_con x = false -> u_ac x = true -> u_lock x = Some u ->
  forall t q, t <> u -> is_at x t q -> exp q = true -> exists es, urun x es = Panic.
Proof.
  intros V N C A L t q NE Q. revert x V N C A L Q.
  induction q as [|f a IHa b IHb|a IHa b IHb|q IHq|a IHa b IHb|a IHa b IHb|a IHa b IHb|q IHq|q IHq|q IHq|q IHq|q IHq|q IHq|q IHq]; intros x V N C A L Q E;
    try (assert (X := i_lock _ V _ _ Q eq_refl); congruence); destruct (i_wf _ V _ _ Q) as [W|W];
    try (inversion W; fail); cbn [exp] in E; try discriminate.
  - (* a check *)
    inversion W; subst.
    + match goal with X : exp b = false |- _ => rewrite X in E end. cbn [orb] in E. destruct f; try discriminate.
      assert (S1 : ustep x (t, true) = Ok (goes x t a)) by (unfold ustep; cbn [fst snd]; rewrite Q; cbn [holds]; rewrite A; reflexivity).
      destruct (IHa (goes x t a)) as [es R]; cbn [goes u_con u_ac u_lock]; auto.
      * eapply inv_step; eauto.
      * eapply at_other; eauto.
      * eapply at_me; eauto.
      * exists ((t, true) :: es). cbn [urun]. rewrite S1. exact R.
    + rewrite orb_false_r in E. congruence.
  - inversion W; subst. apply orb_true_iff in E as [E|E]; congruence.
  - (* the account *)
    assert (S1 : ustep x (u, true) = Ok (UState (u_stat x) (u_con x) false (u_shut x) (u_tok x) (u_lock x) (put x u (PUnlock k)))) by (unfold ustep; cbn [fst snd]; rewrite N; reflexivity).
    exists [(u, true); (t, true)]. cbn [urun]. rewrite S1. cbn [bind]. unfold ustep. cbn [fst snd u_th].
    assert (Q' : is_at (UState (u_stat x) (u_con x) false (u_shut x) (u_tok x) (u_lock x) (put x u (PUnlock k))) t (PDeref q)) by (eapply at_other; eauto).
    unfold is_at in Q'. cbn [u_th] in Q'. rewrite Q'. reflexivity.
  - exists [(t, true)]. cbn [urun]. unfold ustep. cbn [fst snd]. rewrite Q, C. reflexivity.
  - exists [(t, true)]. cbn [urun]. unfold ustep. cbn [fst snd]. rewrite Q, C. reflexivity.
  - inversion W; subst. congruence.
  - (* another closer *)
    inversion W; subst; cbn [exp] in E; [congruence|].
    set (x1 := UState (u_stat x) (u_con x) false (u_shut x) (u_tok x) (u_lock x) (put x u (PUnlock k))).
    assert (S1 : ustep x (u, true) = Ok x1) by (unfold ustep; cbn [fst snd]; rewrite N; reflexivity).
    assert (N1 : is_at x1 u (PUnlock k)) by (eapply at_me; eauto).
    assert (Q1 : is_at x1 t (PLock (PMark (PShut (PSignal (PNilCon (PNilAc (PUnlock k0)))))))) by (eapply at_other; eauto).
    set (x2 := UState (u_stat x1) (u_con x1) (u_ac x1) (u_shut x1) (u_tok x1) None (put x1 u k)).
    assert (S2 : ustep x1 (u, true) = Ok x2) by (unfold ustep; cbn [fst snd]; rewrite N1; reflexivity).
    assert (Q2 : is_at x2 t (PLock (PMark (PShut (PSignal (PNilCon (PNilAc (PUnlock k0)))))))) by (eapply at_other; eauto).
    set (x3 := UState (u_stat x2) (u_con x2) (u_ac x2) (u_shut x2) (u_tok x2) (Some t) (put x2 t (PMark (PShut (PSignal (PNilCon (PNilAc (PUnlock k0)))))))).
    assert (S3 : ustep x2 (t, true) = Ok x3) by (unfold ustep; cbn [fst snd]; rewrite Q2; reflexivity).
    assert (Q3 : is_at x3 t (PMark (PShut (PSignal (PNilCon (PNilAc (PUnlock k0))))))) by (eapply at_me; eauto).
    set (x4 := UState CClosing (u_con x3) (u_ac x3) (u_shut x3) (u_tok x3) (u_lock x3) (put x3 t (PShut (PSignal (PNilCon (PNilAc (PUnlock k0))))))).
    assert (S4 : ustep x3 (t, true) = Ok x4) by (unfold ustep; cbn [fst snd]; rewrite Q3; reflexivity).
    assert (Q4 : is_at x4 t (PShut (PSignal (PNilCon (PNilAc (PUnlock k0)))))) by (eapply at_me; eauto).
    assert (S5 : ustep x4 (t, true) = Panic) by (unfold ustep; cbn [fst snd]; rewrite Q4; cbn [u_con x4 x3 x2 x1]; rewrite C; reflexivity).
    exists [(u, true); (u, true); (t, true); (t, true); (t, true)]. cbn [urun]. rewrite S1. cbn [bind]. rewrite S2. cbn [bind]. rewrite S3. cbn [bind]. rewrite S4. cbn [bind]. rewrite S5. reflexivity.
Qed.

(** The condition is exact: if one other goroutine is exposed when con is about to be cleared, some way
    of going on crashes the client. *)
Theorem C112_refuted_exact : forall p ps es x u k t q ok, (forall r, In r ps -> code p r) -> urun (ustart ps) es = Ok x ->
  is_at x u (PNilCon k) -> t <> u -> is_at x t q -> exposed q ->
  exists es', urun x ((u, ok) :: es') = Panic.
Proof.
  intros p ps es x u k t q ok C R N NE Q X. apply exp_iff in X. pose proof (inv_run _ _ _ (inv_start _ _ C) R) as V.
  set (x1 := UState (u_stat x) false (u_ac x) (u_shut x) (u_tok x) (u_lock x) (put x u k)).
  assert (S1 : ustep x (u, ok) = Ok x1) by (unfold ustep; cbn [fst snd]; rewrite N; reflexivity).
  pose proof (i_sig _ V _ _ N) as CC. cbn in CC. pose proof (i_con _ V CC) as AA. pose proof (i_lock _ V _ _ N eq_refl) as LL.
  destruct (i_wf _ V _ _ N) as [W|W]; inversion W; subst.
  destruct (crash x1 u k0) with (t := t) (q := q) as [es' E]; auto.
  - eapply inv_step; eauto.
  - eapply at_me; eauto.
  - eapply at_other; eauto.
  - exists es'. cbn [urun]. rewrite S1. exact E.
Qed.
Print Assumptions C112_refuted_exact.

(** Goroutines that look at a session and then use it. *)
Inductive uses_it (p : proto) : prog -> Prop :=
| us_send i n l : uses_it p (sender p ((i, n) :: l))
| us_receive b l : uses_it p (receiver p b l)
| us_beat s l : p <> P_SGIP -> uses_it p (upkeep p ((true, s) :: l)).
(** Steps of one goroutine on its own. *)
Lemma step_chk x t ok f a b : is_at x t (PChk f a b) -> ustep x (t, ok) = Ok (goes x t (if holds x f then a else b)).
Proof. intros N. unfold ustep. cbn [fst snd]. rewrite N. reflexivity. Qed.
Lemma at_goes x t q0 q : is_at x t q0 -> is_at (goes x t q) t q.
Proof. intros N. eapply at_me; eauto. Qed.
Lemma goes_other x t q0 q u r : is_at x t q0 -> u <> t -> is_at x u r -> is_at (goes x t q) u r.
Proof. intros N NE H. eapply at_other; eauto. Qed.
Definition fresh (x : ustate) : Prop := u_stat x = CLogin /\ u_con x = true /\ u_ac x = true /\ u_shut x = 0 /\ u_tok x = 0 /\ u_lock x = None.
(** [moves t x x']: on its own goroutine [t] takes the fresh session [x] to the fresh session [x']. *)
Definition moves (t : nat) (x : ustate) (q : prog) : Prop :=
  exists es x', urun x es = Ok x' /\ fresh x' /\ is_at x' t q /\ forall u r, u <> t -> is_at x u r -> is_at x' u r.
Lemma moves_refl t x q : fresh x -> is_at x t q -> moves t x q.
Proof. intros F N. exists [], x. auto. Qed.
Lemma moves_step t x q0 q1 ok q : is_at x t q0 -> ustep x (t, ok) = Ok (goes x t q1) -> (fresh (goes x t q1) -> is_at (goes x t q1) t q1 -> moves t (goes x t q1) q) -> fresh x -> moves t x q.
Proof.
  intros N E H F. destruct H as (es & x' & R & F' & N' & O); [exact F|eapply at_goes; eauto|].
  exists ((t, ok) :: es), x'. cbn [urun]. rewrite E. split; [exact R|]. split; auto. split; auto. intros u r NE Q. apply O; auto. eapply goes_other; eauto.
Qed.
Lemma moves_health p i a b t x q : fresh x -> is_at x t (HealthCheck p i a b) -> 
  (forall x', fresh x' -> is_at x' t (match p with P_SGIP => a | _ => if i then PWrite a a else a end) -> moves t x' q) -> moves t x q.
Proof.
  intros F N H. unfold HealthCheck in N.
  eapply (moves_step t x _ _ true); [exact N|rewrite (step_chk _ _ _ _ _ _ N); cbn [holds]; destruct F as (-> & _); reflexivity| |exact F]. clear N F. intros F N.
  revert F N. generalize (goes x t (PChk FCon (PChk FAc (if match p with P_SGIP => false | _ => i end then PWrite a a else a) b) b)) as y. clear x. intros x F N.
  eapply (moves_step t x _ _ true); [exact N|rewrite (step_chk _ _ _ _ _ _ N); cbn [holds]; destruct F as (_ & -> & _); reflexivity| |exact F]. clear N F. intros F N.
  revert F N. generalize (goes x t (PChk FAc (if match p with P_SGIP => false | _ => i end then PWrite a a else a) b)) as y. clear x. intros x F N.
  eapply (moves_step t x _ _ true); [exact N|rewrite (step_chk _ _ _ _ _ _ N); cbn [holds]; destruct F as (_ & _ & -> & _); reflexivity| |exact F]. clear N F. intros F N.
  apply H; auto. destruct p, i; exact N.
Qed.
Lemma moves_take a b t x q : fresh x -> is_at x t (PTake a b) -> (forall x', fresh x' -> is_at x' t b -> moves t x' q) -> moves t x q.
Proof.
  intros F N H. eapply (moves_step t x _ b true); [exact N| |intros; apply H; auto|exact F].
  unfold ustep. cbn [fst snd]. rewrite N. destruct F as (_ & _ & _ & _ & -> & _). reflexivity.
Qed.
Lemma moves_use p t x q : fresh x -> is_at x t q -> uses_it p q -> exists q', exposed q' /\ moves t x q'.
Proof.
  intros F N H. destruct H as [i n l|b l|s l NP].
  - cbn [sender] in N. destruct p, i; (eexists; split; [|eapply moves_health; [exact F|exact N|cbv beta iota; intros x' F' N'; apply moves_refl; [exact F'|exact N']]]); constructor.
  - set (i := match l with [] => b | r :: _ => rd_idle r end).
    assert (E : exists a e, receiver p b l = PTake Ret (HealthCheck p i (PRead a e) Ret)) by (destruct l; cbn [receiver]; eauto). destruct E as (a & e & E). rewrite E in N.
    destruct p, i; (eexists; split; [|eapply moves_take; [exact F|exact N|intros x1 F1 N1; eapply moves_health; [exact F1|exact N1|cbv beta iota; intros x' F' N'; apply moves_refl; [exact F'|exact N']]]]); constructor.
  - cbn [upkeep] in N. destruct p; [|congruence|]; (eexists; split; [|eapply moves_health; [exact F|exact N|cbv beta iota; intros x' F' N'; apply moves_refl; [exact F'|exact N']]]); constructor.
Qed.
(** A closer on its own gets to the line that clears con. *)
Lemma put_put st co ac sh tk lk x t q0 q r : is_at x t q0 -> put (UState st co ac sh tk lk (put x t q)) t r = put x t r.
Proof.
  intros N. assert (L : (t < length (u_th x))%nat) by (apply nth_error_Some; unfold is_at in N; congruence). unfold put. cbn [u_th].
  rewrite firstn_app, firstn_firstn, Nat.min_id, firstn_length, Nat.min_l, Nat.sub_diag by lia. cbn [firstn]. rewrite app_nil_r. f_equal. f_equal.
  rewrite skipn_app, firstn_length, Nat.min_l by lia. rewrite skipn_all2 by (rewrite firstn_length; lia). replace (S t - t)%nat with 1%nat by lia. reflexivity.
Qed.
Lemma close_half x u k : fresh x -> is_at x u (close k) ->
  urun x (repeat (u, true) 5) = Ok (UState CClosing true true 1 1 (Some u) (put x u (PNilCon (PNilAc (PUnlock k))))).
Proof.
  intros (F1 & F2 & F3 & F4 & F5 & F6) N. destruct x as [st co ac sh tk lk th]. cbn [u_stat u_con u_ac u_shut u_tok u_lock] in *. subst.
  cbn [repeat urun]. unfold close in N.
  rewrite (step_chk _ _ _ _ _ _ N). cbn [holds u_stat bind]. unfold goes. cbn [u_stat u_con u_ac u_shut u_tok u_lock].
  set (y := UState CLogin true true 0 0 None th) in *.
  unfold ustep at 1. cbn [fst snd u_th]. rewrite (at_me CLogin true true 0 0 None y u _ _ N : nth_error (put y u _) u = _). cbn [u_lock u_stat u_con u_ac u_shut u_tok bind]. rewrite (put_put _ _ _ _ _ _ _ _ _ _ _ N).
  unfold ustep at 1. cbn [fst snd u_th]. rewrite (at_me CLogin true true 0 0 None y u _ _ N : nth_error (put y u _) u = _). cbn [u_lock u_stat u_con u_ac u_shut u_tok bind]. rewrite (put_put _ _ _ _ _ _ _ _ _ _ _ N).
  unfold ustep at 1. cbn [fst snd u_th]. rewrite (at_me CLogin true true 0 0 None y u _ _ N : nth_error (put y u _) u = _). cbn [u_lock u_stat u_con u_ac u_shut u_tok bind]. rewrite (put_put _ _ _ _ _ _ _ _ _ _ _ N).
  unfold ustep at 1. cbn [fst snd u_th]. rewrite (at_me CLogin true true 0 0 None y u _ _ N : nth_error (put y u _) u = _). cbn [u_lock u_stat u_con u_ac u_shut u_tok bind]. change (0 <? 1) with true. cbn [bind]. rewrite (put_put _ _ _ _ _ _ _ _ _ _ _ N).
  reflexivity.
Qed.

(** Refuted for every goroutine that uses the session against every goroutine that closes it: however
    the other goroutines are, the client can crash. *)
Theorem C112_refuted : forall p ps t u q, (forall r, In r ps -> code p r) -> t <> u ->
  nth_error ps t = Some q -> uses_it p q -> nth_error ps u = Some hooker ->
  exists es, urun (ustart ps) es = Panic.
Proof.
  intros p ps t u q C NE Q US H.
  destruct (moves_use p t (ustart ps) q) as (q' & X & es & x & R & F & Q' & O); auto; [repeat split|].
  assert (N : is_at x u (close Ret)) by (apply O; auto).
  pose proof (close_half x u Ret F N) as E.
  assert (RR : urun (ustart ps) (es ++ repeat (u, true) 5) = Ok (UState CClosing true true 1 1 (Some u) (put x u (PNilCon (PNilAc (PUnlock Ret)))))).
  { rewrite urun_app, R. cbn [bind]. exact E. }
  destruct (C112_refuted_exact p ps _ _ u (PNilAc (PUnlock Ret)) t q' true C RR) with (2 := NE) (4 := X) as [es' P].
  - eapply at_me; eauto.
  - eapply at_other; eauto.
  - exists ((es ++ repeat (u, true) 5) ++ (u, true) :: es'). rewrite urun_app, RR. exact P.
Qed.
Print Assumptions C112_refuted.

(** Nobody need close the session from outside: the receiver of a session and one sender are enough,
    when the peer goes away. *)
Theorem C112_refuted_reset : forall p ps t u i n l b m, (forall r, In r ps -> code p r) -> t <> u ->
  nth_error ps t = Some (sender p ((i, n) :: l)) -> nth_error ps u = Some (receiver p b m) ->
  exists es, urun (ustart ps) es = Panic.
Proof.
  intros p ps t u i n l b m C NE Q H.
  destruct (moves_use p t (ustart ps) (sender p ((i, n) :: l))) as (q' & X & es & x & R & F & Q' & O); auto; [repeat split|constructor|].
  assert (N : is_at x u (receiver p b m)) by (apply O; auto).
  assert (M : moves u x (close Ret)).
  { set (j := match m with [] => b | r :: _ => rd_idle r end).
    assert (E : exists a, receiver p b m = PTake Ret (HealthCheck p j (PRead a (close Ret)) Ret)) by (destruct m; cbn [receiver]; eauto). destruct E as (a & E). rewrite E in N.
    assert (L : forall y, fresh y -> is_at y u (PRead a (close Ret)) -> moves u y (close Ret)).
    { intros y Fy Ny. eapply (moves_step u y _ (PWait a (close Ret)) true); [exact Ny|unfold ustep; cbn [fst snd]; rewrite Ny; destruct Fy as (_ & -> & _); reflexivity| |exact Fy].
      intros F1 N1. eapply (moves_step u _ _ (close Ret) false); [exact N1|unfold ustep at 1; cbn [fst snd]; rewrite N1; reflexivity| |exact F1].
      intros F2 N2. apply moves_refl; auto. }
    eapply moves_take; [exact F|exact N|]. intros x1 F1 N1. eapply moves_health; [exact F1|exact N1|]. intros x2 F2 N2.
    assert (K : is_at x2 u (PRead a (close Ret)) \/ is_at x2 u (PWrite (PRead a (close Ret)) (PRead a (close Ret)))) by (destruct p, j; auto).
    destruct K as [K|K]; [auto|]. eapply (moves_step u x2 _ (PRead a (close Ret)) true); [exact K| |intros; auto|exact F2].
    unfold ustep. cbn [fst snd]. rewrite K. destruct F2 as (_ & -> & _ & -> & _). reflexivity. }
  destruct M as (es2 & y & R2 & F2 & N2 & O2). pose proof (close_half y u Ret F2 N2) as E.
  assert (RR : urun (ustart ps) ((es ++ es2) ++ repeat (u, true) 5) = Ok (UState CClosing true true 1 1 (Some u) (put y u (PNilCon (PNilAc (PUnlock Ret)))))).
  { rewrite !urun_app, R. cbn [bind]. rewrite R2. cbn [bind]. exact E. }
  destruct (C112_refuted_exact p ps _ _ u (PNilAc (PUnlock Ret)) t q' true C RR) with (2 := NE) (4 := X) as [es' P].
  - eapply at_me; eauto.
  - eapply at_other; eauto.
  - exists (((es ++ es2) ++ repeat (u, true) 5) ++ (u, true) :: es'). rewrite urun_app, RR. exact P.
Qed.
Print Assumptions C112_refuted_reset.

(** At rest: before its next look at the session, done with it, or blocked in Read. *)
Inductive resting (p : proto) : prog -> Prop :=
| rs_code q : code p q -> resting p q
| rs_blocked a : resting p (PWait a (close Ret)).
Lemma resting_exp p q : resting p q -> exp q = false.
Proof. intros [q' H|a]; [apply (code_ok p q' H)|reflexivity]. Qed.
Lemma inv_fresh x : inv x -> u_stat x = CLogin -> u_lock x = None -> fresh x.
Proof.
  intros V S1 L. destruct V. assert (C : u_con x = true) by (destruct (u_con x) eqn:D; auto; destruct (i_gone0 eq_refl); congruence).
  repeat split; auto; [destruct i_range0 as [H|(_ & H & _)]; congruence|]. destruct i_tok0 as [T0 T1]. destruct (Z.eq_dec (u_tok x) 0) as [H|H]; auto. rewrite T1 in S1 by lia. discriminate.
Qed.
(** Closing while all others are at rest is safe: the call ends, the session is unusable, whatever is
    done with it afterwards never crashes and never closes the connection again, and the receiver
    blocked in Read ends. *)
Theorem C112_quiet_partial : forall p ps es x u k, (forall r, In r ps -> code p r) -> urun (ustart ps) es = Ok x ->
  u_stat x = CLogin -> u_lock x = None -> is_at x u (close k) ->
  (forall t q, t <> u -> is_at x t q -> resting p q) ->
  exists x', urun x (repeat (u, true) 8) = Ok x' /\ u_stat x' = CClosing /\ u_con x' = false /\ u_ac x' = false /\ u_lock x' = None /\ is_at x' u k /\
    (forall es', exists y, urun x' es' = Ok y /\ u_con y = false /\ u_shut y = 1) /\
    (forall t a b1 b2, t <> u -> is_at x t (PWait a (close Ret)) -> exists y, urun x' [(t, b1); (t, b2)] = Ok y /\ is_at y t Ret).
Proof.
  intros p ps es x u k C R S1 L N O. pose proof (inv_run _ _ _ (inv_start _ _ C) R) as V. pose proof (inv_fresh _ V S1 L) as F.
  pose proof (close_half x u k F N) as E. set (y := UState CClosing true true 1 1 (Some u) (put x u (PNilCon (PNilAc (PUnlock k))))) in *.
  assert (Vy : inv y) by (eapply inv_run; eauto). assert (Ny : is_at y u (PNilCon (PNilAc (PUnlock k)))) by (eapply at_me; eauto).
  destruct (clear_step y u true _ Vy Ny) as (y1 & E1 & S1').
  { intros t q NE Q. unfold is_at, y in Q. cbn [u_th] in Q. rewrite (put_at x u _ _ t N) in Q. apply Nat.eqb_neq in NE as NE'. rewrite NE' in Q. eapply resting_exp, O; eauto. }
  assert (Y1 : y1 = UState CClosing false true 1 1 (Some u) (put x u (PNilAc (PUnlock k)))).
  { unfold ustep in E1. cbn [fst snd] in E1. rewrite Ny in E1. cbn [u_stat u_ac u_shut u_tok u_lock y] in E1. unfold y in E1. rewrite (put_put _ _ _ _ _ _ _ _ _ _ _ N) in E1. congruence. }
  set (x' := UState CClosing false false 1 1 None (put x u k)).
  assert (E2 : urun y1 (repeat (u, true) 2) = Ok x').
  { subst y1. cbn [repeat urun]. unfold ustep at 1. cbn [fst snd u_th]. rewrite (at_me CClosing false true 1 1 (Some u) x u _ _ N : nth_error (put x u _) u = _). cbn [u_stat u_con u_ac u_shut u_tok u_lock bind]. rewrite (put_put _ _ _ _ _ _ _ _ _ _ _ N).
    unfold ustep at 1. cbn [fst snd u_th]. rewrite (at_me CClosing false true 1 1 (Some u) x u _ _ N : nth_error (put x u _) u = _). cbn [u_stat u_con u_ac u_shut u_tok u_lock bind]. rewrite (put_put _ _ _ _ _ _ _ _ _ _ _ N). reflexivity. }
  assert (S2 : safe x') by (destruct (safe_run (repeat (u, true) 2) y1 S1') as (z & Ez & Sz); congruence).
  exists x'. split; [|split; [reflexivity|split; [reflexivity|split; [reflexivity|split; [reflexivity|split; [eapply at_me; eauto|split]]]]]].
  - change (repeat (u, true) 8) with (repeat (u, true) 5 ++ [(u, true)] ++ repeat (u, true) 2). rewrite urun_app, E. cbn [bind]. rewrite urun_app. cbn [urun bind]. rewrite E1. cbn [bind]. exact E2.
  - intros es'. destruct (safe_run es' x' S2) as (z & Ez & Vz & Cz & _). exists z. split; auto. split; auto. apply (i_gone _ Vz Cz).
  - intros t a b1 b2 NE Q. assert (Q1 : is_at x' t (PWait a (close Ret))) by (eapply at_other; eauto).
    assert (T1 : ustep x' (t, b1) = Ok (goes x' t (close Ret))) by (unfold ustep; cbn [fst snd]; rewrite Q1; cbn [u_shut x']; change (1 =? 0) with false; rewrite andb_false_r; reflexivity).
    assert (Q2 : is_at (goes x' t (close Ret)) t (close Ret)) by (eapply at_goes; eauto).
    exists (goes (goes x' t (close Ret)) t Ret). cbn [urun]. rewrite T1. cbn [bind]. unfold close in Q2. rewrite (step_chk _ _ _ _ _ _ Q2). split; [reflexivity|]. eapply at_goes; eauto.
Qed.
Print Assumptions C112_quiet_partial.

(** In every run, crashing later or not, the connection is closed on this side at most once; the fields
    are cleared only after that, and never set again. *)
Theorem C112_once : forall p ps es x, (forall r, In r ps -> code p r) -> urun (ustart ps) es = Ok x ->
  0 <= u_shut x <= 1 /\ (u_con x = false \/ u_ac x = false -> u_shut x = 1 /\ u_stat x = CClosing) /\
  forall es' y, urun x es' = Ok y -> u_shut x <= u_shut y /\ (u_con x = false -> u_con y = false) /\ (u_ac x = false -> u_ac y = false).
Proof.
  intros p ps es x C R. pose proof (inv_run _ _ _ (inv_start _ _ C) R) as V. split; [|split].
  - destruct (i_range _ V) as [->|[-> _]]; lia.
  - intros H. assert (K : u_con x = false) by (destruct H; auto; apply (i_ac _ V); auto). destruct (i_gone _ V K); auto.
  - intros es'. clear R. revert x V. induction es' as [|e es' IH]; intros x V y E; cbn [urun] in E; [injection E as <-; split; [lia|auto]|].
    destruct (ustep x e) as [x1| |] eqn:S1; cbn [bind] in E; try discriminate. pose proof (inv_step _ _ _ V S1) as V1. destruct (IH x1 V1 y E) as (A1 & A2 & A3).
    assert (B : u_shut x <= u_shut x1 /\ (u_con x = false -> u_con x1 = false) /\ (u_ac x = false -> u_ac x1 = false)).
    { unfold ustep in S1. destruct (nth_error (u_th x) (fst e)) as [q|]; [|injection S1 as <-; split; [lia|auto]].
      destruct q; try (injection S1 as <-; cbn; split; [lia|auto]; fail).
      - destruct (0 <? u_tok x); injection S1 as <-; cbn; split; auto; lia.
      - destruct (u_ac x) eqn:D; [|discriminate]. injection S1 as <-; cbn; rewrite ?D; split; auto; lia.
      - destruct (u_con x) eqn:D; [|discriminate]. injection S1 as <-; cbn; rewrite ?D; split; auto; lia.
      - destruct (u_con x) eqn:D; [|discriminate]. injection S1 as <-; cbn; rewrite ?D; split; auto; lia.
      - destruct (u_lock x); injection S1 as <-; cbn; split; auto; lia.
      - destruct (u_con x) eqn:D; [|discriminate]. injection S1 as <-; cbn; rewrite ?D; split; auto; lia.
      - destruct (u_tok x <? 1); injection S1 as <-; cbn; split; auto; lia. }
    destruct B as (B1 & B2 & B3). split; [lia|auto].
Qed.
Print Assumptions C112_once.

(** A CMPP session with its receiver blocked in Read, a sender about to send two messages and the
    hook of the shutdown: closing is safe, and the two others end without a crash; the same three
    crash when the sender has just looked at the session. *)
Definition c112_ps : list prog :=
  [receiver P_CMPP false [Round false true true 5 false]; sender P_CMPP [(false, 2%nat); (false, 1%nat)]; hooker].
Definition c112_wait : list (nat * bool) := repeat (0%nat, true) 5.
Example C112_case :
  (exists x, urun (ustart c112_ps) c112_wait = Ok x /\ u_stat x = CLogin /\ u_lock x = None /\ is_at x 2 (close Ret) /\
     (exists a, is_at x 0 (PWait a (close Ret))) /\ is_at x 1 (sender P_CMPP [(false, 2%nat); (false, 1%nat)]) /\
     exists y, urun x (repeat (2%nat, true) 8 ++ [(0, true); (0, true); (1, true); (1, true)]%nat) = Ok y /\ u_th y = [Ret; Ret; Ret]) /\
  (exists x, urun (ustart c112_ps) (c112_wait ++ repeat (1%nat, true) 3 ++ repeat (2%nat, true) 5) = Ok x /\
     is_at x 2 (PNilCon (PNilAc (PUnlock Ret))) /\ exists q, is_at x 1 q /\ exposed q) /\
  urun (ustart c112_ps) (c112_wait ++ repeat (1%nat, true) 3 ++ repeat (2%nat, true) 8 ++ [(1%nat, true)]) = Panic /\
  (exists x, urun (ustart c112_ps) (c112_wait ++ repeat (1%nat, true) 8 ++ repeat (2%nat, true) 8) = Ok x /\ u_con x = false /\ u_shut x = 1).
Proof.
  split; [|split; [|split]].
  - eexists. split; [vm_compute; reflexivity|]. repeat (split; [first [reflexivity|eexists; reflexivity]|]). eexists. split; vm_compute; reflexivity.
  - eexists. split; [vm_compute; reflexivity|]. split; [reflexivity|]. eexists. split; [reflexivity|]. constructor.
  - vm_compute. reflexivity.
  - eexists. split; [vm_compute; reflexivity|]. split; reflexivity.
Qed.

(** The jobs are those of the handlers of the client model: on a closed session the handler of a packet
    never returns if the goroutine is exposed there; if it is not, the handler does on the closed
    session what it does on an open one, and writes nothing.  On an open one it leaves the session as
    the goroutine's statements do, with writes ending alike. *)
Definition closed_of (s : csess) : csess := CSess (cs_p s) CClosing false None (cs_pcnt s) (cs_active s).
Ltac hb H := repeat match type of H with
  | (if ?c then _ else _) = _ => destruct c eqn:?; try discriminate
  | bind ?e _ = _ => destruct e eqn:?; cbn [bind] in H; try discriminate
  | match ?e with Ok _ => _ | Err _ => _ | Panic => _ end = _ => destruct e eqn:?; try discriminate
  end.
Ltac kk X := first [vm_compute in X; discriminate | match goal with K : (_ =? _) = true |- _ => vm_compute in K; discriminate end | idtac].
Ltac fin4 := eexists; (split; [vm_compute; reflexivity|]); cbn [u_th u_stat u_con u_ac cs_stat cs_con cs_ac]; (split; [reflexivity|split; [reflexivity|split; [reflexivity|split; congruence]]]).
Ltac fin3 o := destruct (g_err o); fin4.
Lemma no_reply s e b : reply_with s e = Ok b -> cs_con s = false -> False.
Proof. unfold reply_with. intros H C. rewrite C in H. destruct e; discriminate. Qed.
Ltac nr := match goal with K : reply_with _ _ = Ok _ |- _ => apply no_reply in K; [destruct K|reflexivity] end.
Theorem C112_handlers : forall gbd s ca cmd seq f o,
  (exposed (onTraffic (job_of (cs_p s) cmd) false Ret) -> forall h, c_onTraffic gbd (closed_of s) ca cmd seq f o <> Ok h) /\
  (~ exposed (onTraffic (job_of (cs_p s) cmd) false Ret) -> forall s1 ca1 out, c_onTraffic gbd s ca cmd seq f o = Ok (s1, ca1, out) ->
     out = [] /\ exists s2, c_onTraffic gbd (closed_of s) ca cmd seq f o = Ok (s2, ca1, [])) /\
  (cs_stat s = CLogin -> cs_con s = true -> cs_ac s <> None -> forall s1 ca1 out, c_onTraffic gbd s ca cmd seq f o = Ok (s1, ca1, out) ->
     exists bad y, urun (ustart [onTraffic (job_of (cs_p s) cmd) bad Ret]) (repeat (0%nat, negb (g_err o)) 10) = Ok y /\
       u_th y = [Ret] /\ u_stat y = cs_stat s1 /\ u_con y = cs_con s1 /\ (u_ac y = true <-> cs_ac s1 <> None)).
Proof.
  intros gbd s ca cmd seq f o. split; [|split].
  - rewrite exp_iff. intros X h H. destruct s as [p st co ac pc tm]. unfold c_onTraffic, closed_of in *. cbn [cs_p cs_pcnt cs_active] in *.
    destruct p; cbn [job_of] in X.
    + unfold onTrafficCmpp, touch, version_of in H. cbn [cs_p cs_stat cs_con cs_ac cs_pcnt cs_active bind] in H.
      destruct (cmd =? RESP + CONNECT); [discriminate|]. destruct (cmd =? RESP + SUBMIT) eqn:?; cbn [orb] in X;
      (destruct (cmd =? ACTIVE_TEST); [unfold answer_or_close in H; hb H; nr|]);
      (destruct (cmd =? RESP + ACTIVE_TEST) eqn:A1; [apply Z.eqb_eq in A1; subst cmd; kk X|]);
      (destruct (cmd =? TERMINATE) eqn:A2; [hb H; nr|]);
      (destruct (cmd =? RESP + TERMINATE) eqn:A3; [apply Z.eqb_eq in A3; subst cmd; kk X|]); try discriminate.
      destruct (cmd =? DELIVER); discriminate.
    + unfold onTrafficSgip, touch in H. cbn [cs_p cs_stat cs_con cs_ac cs_pcnt cs_active] in H. destruct (cmd =? RESP + SG_BIND) eqn:A0; [apply Z.eqb_eq in A0; subst cmd; kk X|].
      destruct (cmd =? SG_UNBIND) eqn:A1; [hb H; nr|]. destruct (cmd =? RESP + SG_UNBIND); discriminate.
    + unfold onTrafficSmgp, touch, version_of in H. cbn [cs_p cs_stat cs_con cs_ac cs_pcnt cs_active bind] in H.
      destruct (cmd =? RESP + SM_LOGIN); [discriminate|]. destruct (cmd =? RESP + SM_SUBMIT) eqn:?; cbn [orb] in X;
      (destruct (cmd =? SM_ACTIVE_TEST); [unfold answer_or_close in H; hb H; nr|]);
      (destruct (cmd =? RESP + SM_ACTIVE_TEST) eqn:A1; [apply Z.eqb_eq in A1; subst cmd; kk X|]);
      (destruct (cmd =? SM_EXIT) eqn:A2; [hb H; nr|]);
      (destruct (cmd =? RESP + SM_EXIT) eqn:A3; [apply Z.eqb_eq in A3; subst cmd; kk X|]); try discriminate.
      destruct (cmd =? SM_DELIVER); discriminate.
  - rewrite exp_iff. intros X s1 ca1 out H. destruct s as [p st co ac pc tm]. unfold c_onTraffic, closed_of in *. cbn [cs_p cs_pcnt cs_active] in *.
    destruct p; cbn [job_of] in X.
    + unfold onTrafficCmpp, touch, nothing, closing in *. cbn [cs_p cs_stat cs_con cs_ac cs_pcnt cs_active] in *.
      destruct (cmd =? RESP + CONNECT) eqn:A0; [exfalso; apply X; reflexivity|].
      destruct (cmd =? RESP + SUBMIT) eqn:A1; [exfalso; apply X; reflexivity|]. cbn [orb] in X.
      destruct (cmd =? ACTIVE_TEST) eqn:A2; [exfalso; apply X; reflexivity|].
      destruct (cmd =? DELIVER) eqn:A4; [exfalso; apply X; reflexivity|].
      destruct (cmd =? TERMINATE) eqn:A5; [exfalso; apply X; reflexivity|].
      destruct (cmd =? RESP + ACTIVE_TEST) eqn:A3; [injection H as <- <- <-; split; eauto|].
      destruct (cmd =? RESP + TERMINATE) eqn:A6; [|injection H as <- <- <-; split; eauto]. hb H. injection H as <- <- <-. split; auto. eexists. reflexivity.
    + unfold onTrafficSgip, touch, nothing, closing in *. cbn [cs_p cs_stat cs_con cs_ac cs_pcnt cs_active] in *.
      destruct (cmd =? SG_UNBIND) eqn:A1; [exfalso; apply X; reflexivity|].
      destruct (cmd =? RESP + SG_BIND) eqn:A0; [hb H; injection H as <- <- <-; split; [reflexivity|eexists; cbn [bind]; repeat match goal with K : (_ =? _) = true |- _ => rewrite K end; reflexivity]|].
      destruct (cmd =? RESP + SG_UNBIND); [hb H; injection H as <- <- <-; split; eauto; eexists; reflexivity|].
      destruct (cmd =? RESP + SG_SUBMIT); [hb H; injection H as <- <- <-; split; eauto; eexists; reflexivity|]. injection H as <- <- <-; split; eauto.
    + unfold onTrafficSmgp, touch, nothing, closing in *. cbn [cs_p cs_stat cs_con cs_ac cs_pcnt cs_active] in *.
      destruct (cmd =? RESP + SM_LOGIN) eqn:A0; [exfalso; apply X; reflexivity|].
      destruct (cmd =? RESP + SM_SUBMIT) eqn:A1; [exfalso; apply X; reflexivity|]. cbn [orb] in X.
      destruct (cmd =? SM_ACTIVE_TEST) eqn:A2; [exfalso; apply X; reflexivity|].
      destruct (cmd =? SM_DELIVER) eqn:A4; [exfalso; apply X; reflexivity|].
      destruct (cmd =? SM_EXIT) eqn:A5; [exfalso; apply X; reflexivity|].
      destruct (cmd =? RESP + SM_ACTIVE_TEST) eqn:A3; [injection H as <- <- <-; split; eauto|].
      destruct (cmd =? RESP + SM_EXIT) eqn:A6; [|injection H as <- <- <-; split; eauto]. hb H. injection H as <- <- <-. split; auto. eexists. reflexivity.
  - intros S0 C0 A0 s1 ca1 out H. destruct s as [p st co ac pc tm]. cbn [cs_stat cs_con cs_ac] in S0, C0, A0. subst. destruct ac as [ac|]; [clear A0|congruence].
    unfold c_onTraffic in H. cbn [cs_p] in *. destruct p; cbn [job_of].
    + unfold onTrafficCmpp, touch, version_of, nothing, closing, answer_or_close, reply_with, Close in H. cbn [cs_p cs_stat cs_con cs_ac cs_pcnt cs_active bind] in H.
      destruct (cmd =? RESP + CONNECT) eqn:B0; [hb H; injection H as <- <- <-; exists false; fin3 o|].
      destruct (cmd =? RESP + SUBMIT) eqn:B1; cbn [orb].
      * apply Z.eqb_eq in B1; subst cmd. change (RESP + SUBMIT =? ACTIVE_TEST) with false in H. change (RESP + SUBMIT =? RESP + ACTIVE_TEST) with false in H. change (RESP + SUBMIT =? TERMINATE) with false in H. change (RESP + SUBMIT =? RESP + TERMINATE) with false in H. change (RESP + SUBMIT =? RESP + SUBMIT) with true in H. cbn [bind] in H.
        hb H; injection H as <- <- <-; exists false; fin3 o.
      * destruct (cmd =? ACTIVE_TEST) eqn:B2; [destruct (g_err o); hb H; injection H as <- <- <-; exists false; fin4|].
        destruct (cmd =? RESP + ACTIVE_TEST) eqn:B3; [apply Z.eqb_eq in B3; subst cmd; injection H as <- <- <-; exists false; fin3 o|].
        destruct (cmd =? TERMINATE) eqn:B4; [apply Z.eqb_eq in B4; subst cmd; hb H; injection H as <- <- <-; exists false; fin3 o|].
        destruct (cmd =? RESP + TERMINATE) eqn:B5; [apply Z.eqb_eq in B5; subst cmd; injection H as <- <- <-; exists false; fin3 o|].
        destruct (cmd =? DELIVER) eqn:B6; [|injection H as <- <- <-; exists false; fin3 o].
        destruct (g_err o); hb H; injection H as <- <- <-; exists false; cbn [cs_stat cs_con cs_ac]; repeat match goal with X : Ok _ = Ok _ |- _ => injection X as <- end; fin4.
    + unfold onTrafficSgip, touch, nothing, closing, reply_with, Close in H. cbn [cs_p cs_stat cs_con cs_ac cs_pcnt cs_active bind] in H.
      destruct (cmd =? RESP + SG_BIND) eqn:B0; [apply Z.eqb_eq in B0; subst cmd; hb H; injection H as <- <- <-; exists false; fin3 o|].
      destruct (cmd =? SG_UNBIND) eqn:B1; [hb H; injection H as <- <- <-; exists false; fin3 o|].
      destruct (cmd =? RESP + SG_UNBIND) eqn:B2; [hb H; injection H as <- <- <-; exists false; fin3 o|].
      destruct (cmd =? RESP + SG_SUBMIT) eqn:B3; [hb H; injection H as <- <- <-; exists false; fin3 o|]. injection H as <- <- <-; exists false; fin3 o.
    + unfold onTrafficSmgp, touch, version_of, nothing, closing, answer_or_close, reply_with, Close in H. cbn [cs_p cs_stat cs_con cs_ac cs_pcnt cs_active bind] in H.
      destruct (cmd =? RESP + SM_LOGIN) eqn:B0; [hb H; injection H as <- <- <-; exists false; fin3 o|].
      destruct (cmd =? RESP + SM_SUBMIT) eqn:B1; cbn [orb].
      * apply Z.eqb_eq in B1; subst cmd. change (RESP + SM_SUBMIT =? SM_ACTIVE_TEST) with false in H. change (RESP + SM_SUBMIT =? RESP + SM_ACTIVE_TEST) with false in H. change (RESP + SM_SUBMIT =? SM_EXIT) with false in H. change (RESP + SM_SUBMIT =? RESP + SM_EXIT) with false in H. change (RESP + SM_SUBMIT =? RESP + SM_SUBMIT) with true in H. cbn [bind] in H.
        hb H; injection H as <- <- <-; exists false; fin3 o.
      * destruct (cmd =? SM_ACTIVE_TEST) eqn:B2; [destruct (g_err o); hb H; injection H as <- <- <-; exists false; fin4|].
        destruct (cmd =? RESP + SM_ACTIVE_TEST) eqn:B3; [apply Z.eqb_eq in B3; subst cmd; injection H as <- <- <-; exists false; fin3 o|].
        destruct (cmd =? SM_EXIT) eqn:B4; [apply Z.eqb_eq in B4; subst cmd; hb H; injection H as <- <- <-; exists false; fin3 o|].
        destruct (cmd =? RESP + SM_EXIT) eqn:B5; [apply Z.eqb_eq in B5; subst cmd; injection H as <- <- <-; exists false; fin3 o|].
        destruct (cmd =? SM_DELIVER) eqn:B6; [|injection H as <- <- <-; exists false; fin3 o].
        destruct (MDeliver_Decode gbd (ac_Version ac) seq f); [|cbn [bind] in H; injection H as <- <- <-; exists true; fin3 o|discriminate].
        destruct (g_err o); hb H; injection H as <- <- <-; exists false; cbn [cs_stat cs_con cs_ac]; repeat match goal with X : Ok _ = Ok _ |- _ => injection X as <- end; fin4.
Qed.
Print Assumptions C112_handlers.

(** One goroutine alone with the session, sending a message of [n] parts: if the write of a part fails
    the session is closed, once, and no further part is written; if none fails it stays as it is,
    whatever became of a heartbeat. *)
Definition alone (outcomes : list bool) : list (nat * bool) := map (fun b => (0%nat, b)) outcomes.
Definition before (p : proto) (idle hb : bool) : list bool :=
  [true; true; true] ++ match p, idle with P_SGIP, _ | _, false => [] | _, true => [hb] end ++ [true].
Theorem C112_sending : forall p idle hb n,
  (forall j, (j < n)%nat -> exists y,
     urun (ustart [sender p [(idle, n)]]) (alone (before p idle hb ++ repeat true j ++ [false] ++ repeat true 10)) = Ok y /\
     u_th y = [Ret] /\ u_stat y = CClosing /\ u_con y = false /\ u_ac y = false /\ u_shut y = 1) /\
  (exists y, urun (ustart [sender p [(idle, n)]]) (alone (before p idle hb ++ repeat true n ++ repeat true 2)) = Ok y /\
     u_th y = [Ret] /\ u_stat y = CLogin /\ u_con y = true /\ u_ac y = true /\ u_shut y = 0).
Proof.
  intros p idle hb n.
  assert (B : urun (ustart [sender p [(idle, n)]]) (alone (before p idle hb)) = Ok (ustart [writes n (AddCounter Ret)])) by (destruct p, idle, hb; reflexivity).
  assert (W : forall j n k, (j <= n)%nat -> urun (ustart [writes n k]) (alone (repeat true j)) = Ok (ustart [writes (n - j) k])).
  { induction j as [|j IH]; intros m k Hj; [rewrite Nat.sub_0_r; reflexivity|]. destruct m as [|m]; [lia|]. cbn [repeat alone map urun]. cbn [writes].
    change (ustep (ustart [PWrite (writes m k) (close k)]) (0%nat, true)) with (Ok (ustart [writes m k])). cbn [bind]. apply (IH m k). lia. }
  unfold alone in *. split.
  - intros j Hj. rewrite !map_app, urun_app, B. cbn [bind]. rewrite urun_app, W by lia. cbn [bind].
    destruct (n - j)%nat as [|m] eqn:E; [lia|]. eexists. split; [cbv; reflexivity|]. cbn [u_th u_stat u_con u_ac u_shut]. auto 6.
  - rewrite !map_app, urun_app, B. cbn [bind]. rewrite urun_app, W by lia. cbn [bind]. rewrite Nat.sub_diag. eexists. split; [cbv; reflexivity|]. cbn [u_th u_stat u_con u_ac u_shut]. auto 6.
Qed.
Print Assumptions C112_sending.
