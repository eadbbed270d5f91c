(** * PropSignals: C83 (the pid file) and C84 (stop signals).  Model: MainModel.v. *)
From Verif Require Import Base SpecText MainModel.

(** ** C83 The pid file names the running process *)
(** A decimal number as a person reads it: digits, no leading zero, the right value. *)
Definition reads_as (t : bytes) (n : Z) : Prop :=
  Forall (fun c => 48 <= c <= 57) t /\ dec_value t = n /\ (exists c r, t = c :: r /\ (c <> 48 \/ r = [])).
(** The file after the process has been started with each of the pids in turn. *)
Definition starts (pids : list Z) (old : option bytes) : option bytes := fold_left (fun f p => savePid true p f) pids old.

Lemma dec_value_app a b : dec_value (a ++ b) = dec_value a * 10 ^ zlen b + dec_value b.
Proof.
  unfold dec_value. rewrite fold_left_app. generalize (fold_left (fun x c => x * 10 + (c - 48)) a 0). intros x. revert x.
  induction b as [|c b IH]; intros x; [unfold zlen; cbn; lia|]. cbn [fold_left]. rewrite IH. rewrite (IH (0 * 10 + (c - 48))).
  rewrite zlen_cons, Z.pow_add_r by (pose proof (zlen_nonneg b); lia). change (10 ^ 1) with 10. ring.
Qed.
Lemma dec_digits_reads : forall fuel n, 0 <= n < 10 ^ Z.of_nat fuel -> (0 < fuel)%nat -> reads_as (dec_digits fuel n) n.
Proof.
  induction fuel as [|f IH]; intros n Hn Hf; [lia|]. cbn [dec_digits]. rewrite Nat2Z.inj_succ, Z.pow_succ_r in Hn by lia.
  pose proof (Z.mod_pos_bound n 10 ltac:(lia)) as B. destruct (Z.ltb_spec n 10).
  - cbn [app]. rewrite Z.mod_small by lia. split; [repeat constructor; lia|]. split; [unfold dec_value; cbn [fold_left]; lia|]. eexists _, []. auto.
  - destruct f as [|f]; [cbn in Hn; lia|].
    destruct (IH (n / 10)) as (A & V & c & r & E & Z0); [|lia|].
    { change (Z.of_nat (S f)) with (Z.of_nat (S f)) in Hn. split; [apply Z.div_pos; lia|]. apply Z.div_lt_upper_bound; lia. }
    split; [apply Forall_app; split; [auto|repeat constructor; lia]|]. split.
    + rewrite dec_value_app, V. unfold dec_value, zlen. cbn [fold_left length]. change (10 ^ Z.of_nat 1) with 10. pose proof (Z.div_mod n 10 ltac:(lia)). lia.
    + rewrite E. exists c, (r ++ [48 + n mod 10]). split; [reflexivity|]. left. intros ->. destruct Z0 as [Z0|Z0]; [congruence|]. subst r.
      rewrite E in V. unfold dec_value in V. cbn in V. pose proof (Z.div_str_pos n 10 ltac:(lia)). lia.
Qed.
Lemma dec_value_nonneg u : Forall (fun c => 48 <= c <= 57) u -> 0 <= dec_value u.
Proof.
  unfold dec_value. assert (G : forall x, 0 <= x -> Forall (fun c => 48 <= c <= 57) u -> 0 <= fold_left (fun a c => a * 10 + (c - 48)) u x); [|apply G; lia].
  induction u as [|c u IH]; intros x Hx F; [exact Hx|]. inversion F; subst. cbn [fold_left]. apply IH; [lia|auto].
Qed.
Definition pid_ok (p : Z) : Prop := 0 <= p < 10 ^ 20.
Lemma dec_text_reads n : pid_ok n -> reads_as (dec_text n) n.
Proof. intros H. apply dec_digits_reads; [exact H|lia]. Qed.

(** The file after a run of starts: the last pid's digits, then what is left of the longest
    earlier content. *)
Lemma savePid_len p old : option_map (fun f => length f) (savePid true p (Some old)) = Some (Nat.max (length (dec_text p)) (length old)).
Proof. unfold savePid. cbn [option_map]. rewrite app_length, skipn_length. f_equal. lia. Qed.
Lemma starts_some : forall pids f, exists g, starts pids (Some f) = Some g /\
  length g = fold_right Nat.max (length f) (map (fun p => length (dec_text p)) pids).
Proof.
  induction pids as [|p pids IH]; intros f; [exists f; auto|]. unfold starts in *. cbn [fold_left map fold_right].
  destruct (IH (dec_text p ++ skipn (length (dec_text p)) f)) as (g & E & L). exists g. split; [exact E|]. rewrite L, app_length, skipn_length.
  clear. generalize (length (dec_text p)), (map (fun q => length (dec_text q)) pids). intros n l. induction l as [|a l IH]; cbn [fold_right]; lia.
Qed.
(** The content is the last pid exactly if no earlier content was longer than it. *)
Theorem C83_exact : forall pids p old, pid_ok p ->
  exists f, starts (pids ++ [p]) (Some old) = Some f /\
    (forall n, reads_as f n -> (n = p <-> (length old <= length (dec_text p))%nat /\ Forall (fun q => (length (dec_text q) <= length (dec_text p))%nat) pids)) /\
    ((length old <= length (dec_text p))%nat /\ Forall (fun q => (length (dec_text q) <= length (dec_text p))%nat) pids -> reads_as f p).
Proof.
  intros pids p old Hp. destruct (starts_some pids old) as (g & E & L). unfold starts. rewrite fold_left_app. fold (starts pids (Some old)). rewrite E.
  cbn [fold_left savePid]. set (t := dec_text p) in *. exists (t ++ skipn (length t) g). split; [reflexivity|].
  pose proof (dec_text_reads p Hp) as R. fold t in R. assert (T0 : p = 0 -> t = [48]) by (unfold t; intros ->; reflexivity).
  assert (Q : (length g <= length t)%nat <-> (length old <= length t)%nat /\ Forall (fun q => (length (dec_text q) <= length t)%nat) pids).
  { rewrite L. generalize (length t). clear. intros m. induction pids as [|q pids IH]; cbn [map fold_right]; [split; [auto|intros []; auto]|].
    split; [intros H; split; [apply IH; lia|constructor; [lia|apply IH; lia]]|]. intros (A & B). inversion B; subst. assert (fold_right Nat.max (length old) (map (fun p => length (dec_text p)) pids) <= m)%nat by (apply IH; auto). lia. }
  split.
  - intros n Rn. rewrite <- Q. split.
    + intros ->. destruct (Nat.le_gt_cases (length g) (length t)) as [|G]; [auto|exfalso].
      destruct Rn as (D & V & Rn0). destruct R as (D2 & V2 & c & r & Et & Z0). rewrite dec_value_app, V2 in V.
      set (u := skipn (length t) g) in *. assert (LU : 1 <= zlen u) by (unfold zlen, u; rewrite skipn_length; lia).
      apply Forall_app in D. destruct D as (_ & Du).
      pose proof (dec_value_nonneg u Du) as NU.
      destruct (Z.eq_dec p 0) as [P0|P0].
      * destruct Rn0 as (c' & r' & E' & Z1). rewrite Et in E'. cbn [app] in E'. injection E' as <- <-.
        destruct Z1 as [Z1|Z1]; [|apply app_eq_nil in Z1; destruct Z1 as (_ & Z1); rewrite Z1 in LU; unfold zlen in LU; cbn in LU; lia].
        apply Z1. rewrite (T0 P0) in Et. congruence.
      * assert (10 ^ 1 <= 10 ^ zlen u) by (apply Z.pow_le_mono_r; lia). destruct Hp. nia.
    + intros G. rewrite skipn_all2, app_nil_r in Rn by auto. destruct Rn as (_ & V & _). destruct R as (_ & V2 & _). congruence.
  - intros C. apply Q in C. rewrite skipn_all2, app_nil_r by auto. exact R.
Qed.

(** Refuted for all pids: started after a process whose pid has more digits, the file shows another
    number than the running process. *)
Theorem C83_refuted : forall a b old, pid_ok a -> pid_ok b -> (length (dec_text b) < length (dec_text a))%nat ->
  exists f, starts [a; b] old = Some f /\ firstn (length (dec_text b)) f = dec_text b /\ f <> dec_text b /\ ~ reads_as f b.
Proof.
  intros a b old Ha Hb L.
  assert (exists o, starts [a] old = Some o /\ (length (dec_text a) <= length o)%nat) as (o & E & Lo).
  { unfold starts. cbn [fold_left savePid]. eexists. split; [reflexivity|]. rewrite app_length. lia. }
  destruct (C83_exact [] b o Hb) as (f & Ef & X & _). cbn [app] in Ef. exists f.
  unfold starts in *. cbn [fold_left] in *. rewrite E. split; [exact Ef|].
  assert (N : ~ reads_as f b). { intros R. destruct (proj1 (X b R) eq_refl) as (C & _). lia. }
  split; [|split; [|exact N]].
  - cbn [savePid] in Ef. injection Ef as <-. rewrite firstn_app, firstn_all, Nat.sub_diag, firstn_O, app_nil_r. reflexivity.
  - intros ->. apply N. apply dec_text_reads. auto.
Qed.
Example C83_case : starts [12345; 678] None = Some [54;55;56;52;53] /\ starts [678; 12345] None = Some [49;50;51;52;53]
  /\ pid_ok 678 /\ (length (dec_text 678) < length (dec_text 12345))%nat.
Proof. split; [reflexivity|]. split; [reflexivity|]. split; [unfold pid_ok; lia|]. vm_compute. lia. Qed.
Print Assumptions C83_exact.
Print Assumptions C83_refuted.

(** ** C84 A stop signal ends the process in an orderly way *)
Definition quiet (es : list pev) : Prop := Forall (fun e => e <> Signal) es.
(** A stop in good order: the shutdown hooks have run, once, and main has left. *)
Definition orderly (p : proc) : Prop := pc_p p = Exited /\ pc_hooks p = 1%nat.

Record pinv (p : proc) : Prop := Pinv {
  pv_hooks : pc_hooks p = match pc_h p with HClosed | HGone => 1%nat | _ => 0%nat end;
  pv_gone : pc_h p = HGone <-> pc_m p = MOver;
  pv_exit : pc_p p = Exited -> pc_m p = MOver;
  pv_kill : pc_p p = Killed -> pc_h p = HStart;
  pv_broken : pc_p p = Broken -> pc_h p = HClosed \/ pc_h p = HGone }.
Lemma pinv_step p e : pinv p -> pinv (proc_step p e).
Proof.
  intros [A B C D F]. destruct p as [h m q k]. cbn [pc_h pc_m pc_p pc_hooks] in *.
  destruct q; [|constructor; auto|constructor; auto|constructor; auto].
  destruct e, h; cbn [proc_step pc_h pc_m pc_p pc_hooks]; try destruct m; constructor; cbn [pc_h pc_m pc_p pc_hooks]; auto;
    try (split; intros; (discriminate || tauto || congruence)); try (intros; discriminate); subst; auto; try (intuition congruence).
Qed.
Lemma pinv_run es : forall p, pinv p -> pinv (proc_run es p).
Proof. induction es as [|e es IH]; intros p I; [exact I|]. apply (IH (proc_step p e)). apply pinv_step. exact I. Qed.
Lemma pinv_new : pinv new_proc.
Proof. constructor; cbn; auto; try discriminate. split; discriminate. Qed.
(** Steps of main itself: one to its wait, one to its end. *)
Definition main_steps (es : list pev) : nat := length (filter (fun e => match e with MainStep => true | _ => false end) es).
Definition main_rank (p : proc) : nat := match pc_p p with Exited => 2 | _ => match pc_m p with MBusy => 0 | _ => 1 end end.
Lemma main_rank_run es : (main_rank (proc_run es new_proc) <= main_steps es)%nat.
Proof.
  induction es as [|e es IH] using rev_ind; [cbn; lia|]. unfold proc_run, main_steps in *. rewrite fold_left_app, filter_app, app_length. cbn [fold_left]. revert IH. generalize (fold_left proc_step es new_proc). intros [h m p n] IH.
  destruct p; try (cbn in *; lia). destruct e; cbn [filter length]; unfold main_rank, proc_step in *; cbn in *; [destruct h|destruct h; try destruct m|destruct m]; cbn in *; lia.
Qed.
(** Whatever happens, in every order: the hooks run at most once, and an exit is always orderly. *)
Theorem C84_exit_orderly : forall es, let p := proc_run es new_proc in
  (pc_hooks p <= 1)%nat /\ (pc_p p = Exited -> orderly p) /\ (pc_p p = Killed -> pc_hooks p = 0%nat) /\ (pc_p p = Exited -> (2 <= main_steps es)%nat).
Proof.
  intros es p. destruct (pinv_run es _ pinv_new) as [A B C D F]. fold p in A, B, C, D, F. split; [rewrite A; destruct (pc_h p); lia|].
  rewrite <- and_assoc. split; [|intros E; pose proof (main_rank_run es) as R; fold p in R; unfold main_rank in R; rewrite E in R; exact R]. split.
  - intros E. split; [exact E|]. rewrite A. apply C, B in E. rewrite E. reflexivity.
  - intros E. rewrite A, (D E). reflexivity.
Qed.
(** A process that waits for signals and gets exactly one ends orderly as soon as the handler has
    had two steps and main two, in any order that lets the handler send while main waits; it never
    ends otherwise. *)
Theorem C84_one_partial : forall es0 es, let p := proc_run es0 new_proc in
  pc_p p = Alive -> pc_h p = HWaiting -> quiet es ->
  let q := proc_run (Signal :: es) p in
  (pc_p q = Alive \/ orderly q) /\ orderly (proc_run [MainStep; HandlerStep; HandlerStep; MainStep] q).
Proof.
  intros es0 es p P H Q q.
  assert (I : pinv p) by apply pinv_run, pinv_new.
  assert (K : pinv q) by (apply pinv_run; exact I).
  assert (G : (pc_h q = HHooks \/ pc_h q = HClosed \/ pc_h q = HGone) /\ (pc_p q = Alive \/ pc_p q = Exited)).
  { unfold q, proc_run. cbn [fold_left]. assert (E : proc_step p Signal = Proc HHooks (pc_m p) Alive (pc_hooks p)) by (unfold proc_step; rewrite P, H; reflexivity).
    rewrite E. clear - Q. generalize (Proc HHooks (pc_m p) Alive (pc_hooks p)), (conj (or_introl eq_refl) (or_introl eq_refl) :
      (pc_h (Proc HHooks (pc_m p) Alive (pc_hooks p)) = HHooks \/ pc_h (Proc HHooks (pc_m p) Alive (pc_hooks p)) = HClosed \/ pc_h (Proc HHooks (pc_m p) Alive (pc_hooks p)) = HGone) /\
      (pc_p (Proc HHooks (pc_m p) Alive (pc_hooks p)) = Alive \/ pc_p (Proc HHooks (pc_m p) Alive (pc_hooks p)) = Exited)).
    induction Q as [|e es N Q IH]; intros x X; [exact X|]. apply (IH (proc_step x e)). clear IH Q. destruct x as [h m a k]. cbn [pc_h pc_p] in X.
    destruct X as ([->|[->| ->]] & [->| ->]); destruct e; try congruence; cbn; try destruct m; cbn; auto. }
  destruct K as [A B C D F]. destruct q as [h m a k]. cbn [pc_h pc_m pc_p pc_hooks] in *.
  destruct G as ([->|[->| ->]] & [->| ->]); cbn in A; subst k; split; unfold orderly; cbn; auto; try (exfalso; assert (X := proj2 B (C eq_refl)); discriminate X);
    destruct m; cbn; auto; try (exfalso; assert (X := proj2 B eq_refl); discriminate X); try (exfalso; assert (X := proj1 B eq_refl); discriminate X).
Qed.
(** Signals that arrive while the hooks run change nothing. *)
Theorem C84_during_hooks : forall es, let p := proc_run es new_proc in pc_p p = Alive -> pc_h p = HHooks ->
  forall n es', proc_run (repeat Signal n ++ es') p = proc_run es' p.
Proof.
  intros es p P H n es'. unfold proc_run. rewrite fold_left_app. f_equal. induction n as [|n IH]; [reflexivity|]. cbn [repeat fold_left].
  unfold proc_step at 2. rewrite P, H. exact IH.
Qed.
(** Refuted: a signal that arrives when the handler is registered but not yet receiving is lost;
    without another one the process never ends. *)
Theorem C84_refuted_lost : forall es, let p := proc_run es new_proc in pc_p p = Alive -> pc_h p = HNotified ->
  forall es', quiet es' -> pc_p (proc_run (Signal :: es') p) = Alive /\ pc_hooks (proc_run (Signal :: es') p) = 0%nat.
Proof.
  intros es p P H es' Q. assert (I : pinv p) by apply pinv_run, pinv_new.
  assert (E : proc_step p Signal = p) by (unfold proc_step; rewrite P, H; destruct p; cbn in *; subst; reflexivity).
  unfold proc_run. cbn [fold_left]. rewrite E.
  assert (G : pc_p p = Alive /\ pc_hooks p = 0%nat /\ (pc_h p = HNotified \/ pc_h p = HWaiting) /\ pc_m p <> MOver).
  { destruct I as [A B _ _ _]. rewrite H in A. repeat split; auto. intros M. apply B in M. congruence. }
  clear - G Q. clearbody p. revert p G. induction Q as [|e es' N Q IH]; intros x (A & B & C & D); [auto|].
  apply (IH (proc_step x e)). destruct x as [h m a k]. cbn [pc_h pc_m pc_p pc_hooks] in *. subst a k.
  destruct e; [congruence| |]; destruct C as [->| ->]; destruct m; cbn; repeat split; auto; congruence.
Qed.
(** Refuted: before the handler is registered a signal kills the process, no hook ever runs. *)
Theorem C84_refuted_early : forall es, let p := proc_run es new_proc in pc_p p = Alive -> pc_h p = HStart ->
  forall es', pc_p (proc_run (Signal :: es') p) = Killed /\ pc_hooks (proc_run (Signal :: es') p) = 0%nat.
Proof.
  intros es p P H es'. assert (I : pinv p) by apply pinv_run, pinv_new. destruct I as [A _ _ _ _]. rewrite H in A. clearbody p.
  assert (E : proc_step p Signal = Proc HStart (pc_m p) Killed (pc_hooks p)) by (unfold proc_step; rewrite P, H; reflexivity).
  unfold proc_run. cbn [fold_left]. rewrite E, A. induction es' as [|e es' IH]; [split; reflexivity|]. exact IH.
Qed.
(** Refuted: a second signal after the hooks and before the exit breaks the process off. *)
Theorem C84_refuted_second : forall es, let p := proc_run es new_proc in pc_p p = Alive -> pc_hooks p = 1%nat ->
  forall es', pc_p (proc_run (Signal :: es') p) = Broken.
Proof.
  intros es p P H es'. assert (I : pinv p) by apply pinv_run, pinv_new. destruct I as [A _ _ _ _]. rewrite H in A.
  assert (E : pc_p (proc_step p Signal) = Broken) by (unfold proc_step; rewrite P; destruct (pc_h p); try discriminate A; reflexivity).
  unfold proc_run. cbn [fold_left]. clear - E. revert E. generalize (proc_step p Signal). induction es' as [|e es' IH]; intros x E; [exact E|]. cbn [fold_left]. apply IH. unfold proc_step. rewrite E. exact E.
Qed.
(** Both windows are reached; with one signal at the right moment all is well. *)
Example C84_case : let ready := [HandlerStep; HandlerStep; MainStep] in
  orderly (proc_run (ready ++ [Signal; HandlerStep; HandlerStep; MainStep]) new_proc) /\
  pc_h (proc_run [HandlerStep] new_proc) = HNotified /\ pc_p (proc_run [HandlerStep] new_proc) = Alive /\
  pc_p (proc_run (ready ++ [Signal; HandlerStep]) new_proc) = Alive /\ pc_hooks (proc_run (ready ++ [Signal; HandlerStep]) new_proc) = 1%nat /\
  pc_p (proc_run (ready ++ [Signal; HandlerStep; Signal]) new_proc) = Broken.
Proof. cbv. auto 10. Qed.
Print Assumptions C84_exit_orderly.
Print Assumptions C84_one_partial.
Print Assumptions C84_during_hooks.
Print Assumptions C84_refuted_lost.
Print Assumptions C84_refuted_early.
Print Assumptions C84_refuted_second.
