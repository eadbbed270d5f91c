(** * EventProofs: proofs about EventModel. *)
From Coq Require Import Sorting.Permutation.
From Verif Require Import Base EventModel.

Lemma key_eqb_eq a b : key_eqb a b = true <-> a = b.
Proof. unfold key_eqb. destruct (list_eq_dec Z.eq_dec a b); split; intros; auto; discriminate. Qed.
Lemma key_eqb_refl a : key_eqb a a = true.
Proof. apply key_eqb_eq; auto. Qed.
Lemma key_eqb_neq a b : a <> b -> key_eqb a b = false.
Proof. intros. destruct (key_eqb a b) eqn:E; auto. apply key_eqb_eq in E. congruence. Qed.

Lemma has_prefix_iff : forall p k, has_prefix k p = true <-> exists r, k = p ++ r.
Proof.
  induction p as [|y p IH]; intros k; cbn.
  - split; eauto.
  - destruct k as [|x k]; [split; [discriminate|intros [r H]; discriminate]|].
    rewrite andb_true_iff, IH. split.
    + intros [H [r ->]]. exists r. f_equal. lia.
    + intros [r H]. injection H as -> ->. split; [lia|eauto].
Qed.

Lemma full_key_prefix p k : has_prefix (full_key p k) p = true.
Proof. unfold full_key. destruct (has_prefix k p) eqn:E; auto. apply has_prefix_iff. eauto. Qed.
Lemma full_key_idem p k : full_key p (full_key p k) = full_key p k.
Proof. unfold full_key at 1. rewrite full_key_prefix. reflexivity. Qed.

Lemma load_delete m k k' : sm_load (sm_delete m k) k' = if key_eqb k k' then None else sm_load m k'.
Proof.
  induction m as [|[a v] m IH]; cbn; [destruct (key_eqb k k'); auto|].
  destruct (key_eqb a k) eqn:E1.
  - apply key_eqb_eq in E1 as ->. rewrite IH. destruct (key_eqb k k'); auto.
  - cbn. rewrite IH. destruct (key_eqb a k') eqn:E2; auto.
    apply key_eqb_eq in E2 as ->. destruct (key_eqb k k') eqn:E3; auto.
    apply key_eqb_eq in E3 as ->. rewrite key_eqb_refl in E1. discriminate.
Qed.

Lemma load_app m m' k : sm_load (m ++ m') k = match sm_load m k with Some v => Some v | None => sm_load m' k end.
Proof. induction m as [|[a v] m IH]; cbn; auto. destruct (key_eqb a k); auto. Qed.

Lemma load_store m k v k' : sm_load (sm_store m k v) k' = if key_eqb k k' then Some v else sm_load m k'.
Proof.
  unfold sm_store. rewrite load_app, load_delete. cbn.
  destruct (key_eqb k k') eqn:E; auto. destruct (sm_load m k'); auto.
Qed.

Lemma delete_In m k a : In a (map fst (sm_delete m k)) -> In a (map fst m) /\ a <> k.
Proof.
  induction m as [|[b v] m IH]; cbn; [tauto|]. destruct (key_eqb b k) eqn:E; cbn.
  - intros H. apply IH in H. tauto.
  - intros [->|H]; [|apply IH in H; tauto]. split; auto. intros ->. rewrite key_eqb_refl in E. discriminate.
Qed.

Lemma delete_NoDup m k : NoDup (map fst m) -> NoDup (map fst (sm_delete m k)).
Proof.
  induction m as [|[b v] m IH]; cbn; intros H; auto. inversion H; subst.
  destruct (key_eqb b k); auto. cbn. constructor; auto. intros HI. apply delete_In in HI. tauto.
Qed.

Lemma store_NoDup m k v : NoDup (map fst m) -> NoDup (map fst (sm_store m k v)).
Proof.
  intros H. unfold sm_store. rewrite map_app. cbn [map fst].
  assert (N : ~ In k (map fst (sm_delete m k))) by (intros HI; apply delete_In in HI; tauto).
  apply (Permutation_NoDup (l := k :: map fst (sm_delete m k))).
  - apply Permutation_cons_append.
  - constructor; auto. apply delete_NoDup. auto.
Qed.

Lemma load_In m k v : NoDup (map fst m) -> In (k, v) m -> sm_load m k = Some v.
Proof.
  induction m as [|[b w] m IH]; cbn; intros H HI; [tauto|]. inversion H; subst.
  destruct HI as [HI|HI].
  - injection HI as -> ->. rewrite key_eqb_refl. auto.
  - destruct (key_eqb b k) eqn:E; auto. apply key_eqb_eq in E as ->.
    exfalso. apply H2. apply (in_map fst) in HI. exact HI.
Qed.

Lemma fuzzy_trace p order m : NoDup (map fst m) -> Permutation order m ->
  ev_FuzzyCall p order m = flat_map snd (filter (fun kv => has_prefix (fst kv) p) order).
Proof.
  intros Hn HP. unfold ev_FuzzyCall.
  assert (G : forall l, (forall x, In x l -> In x m) ->
    flat_map (fun kv => if has_prefix (fst kv) p then ev_Call p (fst kv) m else []) l
    = flat_map snd (filter (fun kv => has_prefix (fst kv) p) l)).
  { induction l as [|[k v] l IH]; intros H; cbn; auto. destruct (has_prefix k p) eqn:E.
    - cbn [flat_map snd]. rewrite IH by (intros; apply H; right; auto). f_equal.
      unfold ev_Call, ev_Get. rewrite full_key_idem. unfold full_key. rewrite E.
      rewrite (load_In m k v); auto. apply H. left; auto.
    - apply IH. intros; apply H; right; auto. }
  apply G. intros x Hx. eapply Permutation_in; eauto.
Qed.

(** ** Concurrent registration *)

(** Invariant: once something is stored, some caller that reported success stored it; a
    caller reports refusal only if something is stored. *)
Definition cinv (s : creg) : Prop :=
  (forall h, cell s = Some h -> In (h, CDone true) (pcs s)) /\
  (forall h, In (h, CDone false) (pcs s) -> h <> [] -> cell s <> None) /\
  (cell s = None -> forall h, ~ In (h, CDone true) (pcs s)).

Lemma creg_step_inv : forall i c ts, cinv (Creg c ts) ->
  let (c', ts') := creg_step i c ts in cinv (Creg c' ts') /\ map fst ts' = map fst ts.
Proof.
  assert (G : forall i c ts c' ts', creg_step i c ts = (c', ts') ->
     (c' = c /\ ts' = ts) \/
     exists l t r, ts = l ++ t :: r /\ pc_step c t = (c', snd (pc_step c t)) /\ ts' = l ++ snd (pc_step c t) :: r).
  { induction i; intros c ts c' ts' H; destruct ts as [|t ts]; cbn in H.
    - injection H as <- <-. auto.
    - destruct (pc_step c t) as [c1 t1] eqn:E. injection H as <- <-. right. exists [], t, ts.
      rewrite E. auto.
    - injection H as <- <-. auto.
    - destruct (creg_step i c ts) as [c1 r1] eqn:E. injection H as <- <-.
      apply IHi in E as [[-> ->]|(l & t' & r & -> & E1 & ->)]; [left; auto|].
      right. exists (t :: l), t', r. auto. }
  intros i c ts (I1 & I2 & I3). destruct (creg_step i c ts) as [c' ts'] eqn:E.
  apply G in E as [[-> ->]|(l & [evs pc] & r & -> & E1 & ->)]; [split; [split; [|split]|]; auto|].
  cbn [cell pcs] in *.
  assert (D : forall P t, In P (l ++ t :: r) <-> (In P l \/ In P r) \/ P = t).
  { intros. rewrite in_app_iff. cbn. intuition. }
  destruct pc as [| |b].
  - destruct evs as [|e evs]; cbn in E1 |- *.
    + injection E1 as <-. split; [|rewrite !map_app; reflexivity]. split; [|split]; cbn [cell pcs].
      * intros h Hh. apply I1 in Hh. apply D in Hh. apply D. destruct Hh; [auto|congruence].
      * intros h Hh Hne. apply D in Hh. destruct Hh; [|congruence]. apply I2 with h; auto. apply D; auto.
      * intros Hc h Hh. apply D in Hh. destruct Hh; [|congruence]. apply (I3 Hc h). apply D; auto.
    + injection E1 as <-. split; [|rewrite !map_app; reflexivity]. split; [|split]; cbn [cell pcs].
      * intros h Hh. pose proof (I1 h Hh) as Hx. apply D in Hx. apply D. destruct Hx; [auto|congruence].
      * intros h Hh Hne. apply D in Hh. destruct Hh as [Hh|Hh].
        -- apply I2 with h; auto. apply D; auto.
        -- destruct c; congruence.
      * intros Hc h Hh. apply D in Hh. destruct Hh as [Hh|Hh].
        -- apply (I3 Hc h). apply D; auto.
        -- subst c. congruence.
  - assert (EE : c' = Some evs /\ snd (pc_step c (evs, CChecked)) = (evs, CDone true)).
    { destruct evs; cbn in *; injection E1 as <-; auto. }
    destruct EE as [-> EE]. rewrite EE. split; [|rewrite !map_app; reflexivity]. split; [|split]; cbn [cell pcs].
    + intros h Hh. injection Hh as <-. apply D. auto.
    + intros; discriminate.
    + intros; discriminate.
  - assert (EE : c' = c /\ snd (pc_step c (evs, CDone b)) = (evs, CDone b)).
    { destruct evs; cbn in *; injection E1 as <-; auto. }
    destruct EE as [-> EE]. rewrite EE. split; [split; [|split]|]; auto.
Qed.

Lemma creg_run_inv sched : forall s, cinv s -> cinv (creg_run sched s) /\ map fst (pcs (creg_run sched s)) = map fst (pcs s).
Proof.
  induction sched as [|i sched IH]; intros [c ts] H; [split; auto|].
  cbn [creg_run fold_left cell pcs].
  pose proof (creg_step_inv i c ts H) as G. destruct (creg_step i c ts) as [c' ts']. destruct G as [G1 G2].
  unfold creg_run in IH. destruct (IH (Creg c' ts') G1) as [A B]. split; [exact A|].
  cbn [pcs] in *. congruence.
Qed.

Lemma creg_init_inv callers : cinv (creg_init callers).
Proof.
  unfold creg_init. split; [|split]; cbn [cell pcs].
  - discriminate.
  - intros h Hh. apply in_map_iff in Hh as (x & E & _). congruence.
  - intros _ h Hh. apply in_map_iff in Hh as (x & E & _). congruence.
Qed.

(** ** Shutdown hooks *)
Lemma hook_exec_free send events : ~ In send events -> hook_exec send (events ++ [send]) 0 = (events, 1%nat, false).
Proof.
  induction events as [|e l IH]; intros H; cbn [hook_exec app].
  - rewrite Z.eqb_refl. reflexivity.
  - replace (e =? send) with false by (symmetry; apply Z.eqb_neq; intros ->; apply H; left; auto).
    rewrite IH; auto. intros HI; apply H; right; auto.
Qed.
Lemma hook_exec_full send events n : ~ In send events -> hook_exec send (events ++ [send]) (S n) = (events, S n, true).
Proof.
  induction events as [|e l IH]; intros H; cbn [hook_exec app].
  - rewrite Z.eqb_refl. reflexivity.
  - replace (e =? send) with false by (symmetry; apply Z.eqb_neq; intros ->; apply H; left; auto).
    rewrite IH; auto. intros HI; apply H; right; auto.
Qed.
