(** * PropEvents: properties C21-C25, C27 (event registry, shutdown hooks, submit options). *)
From Coq Require Import Sorting.Permutation.
From Verif Require Import Base EventModel EventProofs OptionsModel SpecOptions.

(** ** C21 Event registry semantics *)

(** The intended registry: a finite map from full keys to handler lists. *)
Definition registry := list Z -> option (list Z).
Inductive reg_op :=
| RegisterOp (prefix k : list Z) (handlers : list Z)
| GetOp (prefix k : list Z)
| CallOp (prefix k : list Z)
| DeleteOp (prefix k : list Z).
Inductive reg_out := Accepted | Refused | Found | Missing | Ran (handlers : list Z) | Done.

(** The name a registry with [prefix] uses for [k]: the prefix is put in front unless it is
    there already. *)
Definition names (prefix k name : list Z) : Prop :=
  ((exists r, k = prefix ++ r) /\ name = k) \/ (~ (exists r, k = prefix ++ r) /\ name = prefix ++ k).

Inductive reg_spec (r : registry) : reg_op -> registry -> reg_out -> Prop :=
| sp_reg_new p k n hs r' : names p k n -> hs <> [] -> r n = None ->
    r' n = Some hs -> (forall n', n' <> n -> r' n' = r n') -> reg_spec r (RegisterOp p k hs) r' Accepted
| sp_reg_old p k n hs r' old : names p k n -> hs <> [] -> r n = Some old ->
    (forall n', r' n' = r n') -> reg_spec r (RegisterOp p k hs) r' Refused
| sp_reg_none p k r' : (forall n', r' n' = r n') -> reg_spec r (RegisterOp p k []) r' Refused
| sp_get p k n r' : names p k n -> (forall n', r' n' = r n') ->
    reg_spec r (GetOp p k) r' (match r n with Some _ => Found | None => Missing end)
| sp_call p k n r' : names p k n -> (forall n', r' n' = r n') ->
    reg_spec r (CallOp p k) r' (Ran (match r n with Some hs => hs | None => [] end))
| sp_del p k n r' : names p k n -> r' n = None -> (forall n', n' <> n -> r' n' = r n') ->
    reg_spec r (DeleteOp p k) r' Done.
Inductive reg_specs : registry -> list reg_op -> registry -> list reg_out -> Prop :=
| sps_nil r : reg_specs r [] r []
| sps_cons r o r1 x os r2 xs : reg_spec r o r1 x -> reg_specs r1 os r2 xs -> reg_specs r (o :: os) r2 (x :: xs).

(** What the code does. *)
Definition ev_step (m : smap) (o : reg_op) : smap * reg_out :=
  match o with
  | RegisterOp p k hs => let (m', ok) := ev_Register p k hs m in (m', if ok then Accepted else Refused)
  | GetOp p k => (m, match ev_Get p k m with Some _ => Found | None => Missing end)
  | CallOp p k => (m, Ran (ev_Call p k m))
  | DeleteOp p k => (ev_Delete p k m, Done)
  end.
Fixpoint ev_run (m : smap) (os : list reg_op) : smap * list reg_out :=
  match os with
  | [] => (m, [])
  | o :: r => let (m1, x) := ev_step m o in let (m2, xs) := ev_run m1 r in (m2, x :: xs)
  end.

Lemma full_key_names p k : names p k (full_key p k).
Proof.
  unfold names, full_key. destruct (has_prefix k p) eqn:E.
  - left. split; auto. apply has_prefix_iff; auto.
  - right. split; auto. intros H. apply has_prefix_iff in H. congruence.
Qed.

(** For every sequence of operations, from every content of the registry. *)
Theorem C21_registry : forall os m,
  reg_specs (sm_load m) os (sm_load (fst (ev_run m os))) (snd (ev_run m os)).
Proof.
  induction os as [|o os IH]; intros m; [constructor|].
  cbn [ev_run]. destruct (ev_step m o) as [m1 x] eqn:E. specialize (IH m1).
  destruct (ev_run m1 os) as [m2 xs]. cbn [fst snd] in *. econstructor; [|exact IH]. clear IH m2 xs os.
  destruct o as [p k hs|p k|p k|p k]; cbn [ev_step] in E.
  - unfold ev_Register in E. destruct hs as [|h hs].
    + injection E as <- <-. apply sp_reg_none. auto.
    + unfold ev_Get in E. rewrite full_key_idem in E.
      destruct (sm_load m (full_key p k)) eqn:L.
      * injection E as <- <-. eapply sp_reg_old; eauto using full_key_names. discriminate.
      * injection E as <- <-. eapply sp_reg_new; eauto using full_key_names; try discriminate.
        -- rewrite load_store, key_eqb_refl. reflexivity.
        -- intros n' Hn. rewrite load_store, key_eqb_neq; auto.
  - injection E as <- <-. unfold ev_Get. apply sp_get; auto. apply full_key_names.
  - injection E as <- <-. unfold ev_Call, ev_Get. rewrite full_key_idem. apply sp_call; auto. apply full_key_names.
  - injection E as <- <-. unfold ev_Delete. eapply sp_del; [apply full_key_names|..].
    + rewrite load_delete, key_eqb_refl. reflexivity.
    + intros n' Hn. rewrite load_delete, key_eqb_neq; auto.
Qed.
(** The specification determines the outcome: there is only one way to behave. *)
Theorem C21_spec_deterministic : forall r o r1 x1 r2 x2,
  reg_spec r o r1 x1 -> reg_spec r o r2 x2 -> x1 = x2 /\ forall n, r1 n = r2 n.
Proof.
  assert (U : forall p k n n', names p k n -> names p k n' -> n = n').
  { intros p k n n' [[A ->]|[A ->]] [[B ->]|[B ->]]; auto; tauto. }
  intros r o r1 x1 r2 x2 H1 H2.
  destruct H1; inversion H2; subst; try congruence;
    repeat match goal with A : names ?p ?k ?n, B : names ?p ?k ?n' |- _ =>
      tryif constr_eq n n' then fail else (pose proof (U _ _ _ _ A B); subst n') end;
    try congruence; split; auto; intros q; try congruence.
  - destruct (list_eq_dec Z.eq_dec q n) as [->|]; [congruence|].
    repeat match goal with H : forall n', n' <> _ -> _ |- _ => rewrite (H q) by auto; clear H end. reflexivity.
  - destruct (list_eq_dec Z.eq_dec q n) as [->|]; [congruence|].
    repeat match goal with H : forall n', n' <> _ -> _ |- _ => rewrite (H q) by auto; clear H end. reflexivity.
Qed.
Example C21_case :
  snd (ev_run [] [RegisterOp [1] [7] [10; 11]; RegisterOp [1] [1; 7] [12]; CallOp [1] [7];
                  RegisterOp [1] [8] []; DeleteOp [1] [7]; CallOp [1] [7]; RegisterOp [1] [7] [12]; CallOp [1] [1;7]])
  = [Accepted; Refused; Ran [10; 11]; Refused; Done; Ran []; Accepted; Ran [12]].
Proof. reflexivity. Qed.
Print Assumptions C21_registry.
Print Assumptions C21_spec_deterministic.

(** ** C22 Prefix calls hit exactly the registry's own keys *)

(** Contents reachable by the operations have every key once. *)
Theorem C22_keys_unique : forall os, NoDup (map fst (fst (ev_run [] os))).
Proof.
  assert (G : forall os m, NoDup (map fst m) -> NoDup (map fst (fst (ev_run m os)))).
  { induction os as [|o os IH]; intros m H; cbn [ev_run]; auto.
    destruct (ev_step m o) as [m1 x] eqn:E. assert (H1 : NoDup (map fst m1)).
    { destruct o as [p k hs|p k|p k|p k]; cbn [ev_step] in E; try (injection E as <- <-; auto; fail).
      - unfold ev_Register in E. destruct hs; [injection E as <- <-; auto|].
        destruct (ev_Get _ _ _); injection E as <- <-; auto. apply store_NoDup; auto.
      - injection E as <- <-. unfold ev_Delete. apply delete_NoDup; auto. }
    specialize (IH m1 H1). destruct (ev_run m1 os). exact IH. }
  intros os. apply G. constructor.
Qed.
Lemma Permutation_filter {A} (f : A -> bool) l l' : Permutation l l' -> Permutation (filter f l) (filter f l').
Proof.
  induction 1; cbn; auto.
  - destruct (f x); auto.
  - destruct (f x), (f y); auto. apply perm_swap.
  - eapply perm_trans; eauto.
Qed.
(** Whatever order the map is walked in: the handlers run are those of the entries whose key
    starts with the prefix, each entry once, its handlers in order; the rest is not touched. *)
Theorem C22_prefix_call : forall p order m, NoDup (map fst m) -> Permutation order m ->
  ev_FuzzyCall p order m = flat_map snd (filter (fun kv => has_prefix (fst kv) p) order)
  /\ Permutation (ev_FuzzyCall p order m) (flat_map snd (filter (fun kv => has_prefix (fst kv) p) m))
  /\ (forall k, has_prefix k p = true <-> exists r, k = p ++ r).
Proof.
  intros p order m Hn HP. rewrite (fuzzy_trace p order m Hn HP). split; [reflexivity|]. split.
  - apply Permutation_flat_map. apply Permutation_filter. exact HP.
  - intros k. apply has_prefix_iff.
Qed.
(** Everything registered through a registry with prefix [p] is among them. *)
Theorem C22_own_keys : forall p k hs m m', ev_Register p k hs m = (m', true) ->
  exists n, has_prefix n p = true /\ In (n, hs) m'.
Proof.
  intros p k hs m m' H. unfold ev_Register in H. destruct hs; [discriminate|].
  destruct (ev_Get _ _ _); [discriminate|]. injection H as <-.
  exists (full_key p k). split; [apply full_key_prefix|]. unfold sm_store. apply in_or_app. right. left. auto.
Qed.
Example C22_case : let m := [([1;5],[10]); ([2;5],[20]); ([1;6],[30;31])] in
  ev_FuzzyCall [1] m m = [10; 30; 31] /\ NoDup (map fst m).
Proof. split; [reflexivity|]. repeat constructor; cbn; intuition discriminate. Qed.
Print Assumptions C22_keys_unique.
Print Assumptions C22_prefix_call.
Print Assumptions C22_own_keys.

(** ** C23 Concurrent registration of one key has one winner: refuted *)

(** For any two handler lists there is an interleaving in which both callers are told they
    succeeded, and the first one's handlers are gone. *)
Theorem C23_refuted : forall e1 l1 e2 l2, e1 :: l1 <> e2 :: l2 ->
  exists sched, let s := creg_run sched (creg_init [e1 :: l1; e2 :: l2]) in
  pcs s = [(e1 :: l1, CDone true); (e2 :: l2, CDone true)] /\ cell s <> Some (e1 :: l1).
Proof. intros e1 l1 e2 l2 H. exists [0;1;0;1]%nat. cbn. split; auto. congruence. Qed.
(** True of every interleaving of any number of callers (each with at least one handler),
    once all have returned: somebody is told they succeeded, and the handlers in force are
    those of a caller that was told so. (Missing: that there is only one.) *)
Theorem C23_some_winner_partial : forall callers sched s,
  callers <> [] -> Forall (fun h => h <> []) callers ->
  s = creg_run sched (creg_init callers) ->
  Forall (fun t => exists b, snd t = CDone b) (pcs s) ->
  exists h, cell s = Some h /\ In h callers /\ In (h, CDone true) (pcs s).
Proof.
  intros callers sched s Hne Hh -> Hd.
  destruct (creg_run_inv sched (creg_init callers) (creg_init_inv callers)) as [(I1 & I2 & I3) M].
  set (s := creg_run sched (creg_init callers)) in *.
  assert (M' : map fst (pcs s) = callers).
  { rewrite M. unfold creg_init. cbn [pcs]. rewrite map_map. cbn [fst]. apply map_id. }
  destruct (cell s) as [h|] eqn:Ec.
  - exists h. split; auto. pose proof (I1 h eq_refl) as Hi. split; auto.
    rewrite <- M'. apply (in_map fst) in Hi. exact Hi.
  - exfalso. destruct callers as [|c0 cs]; [congruence|].
    destruct (pcs s) as [|[h pc] ts] eqn:Ep; [discriminate|]. cbn in M'. injection M' as -> _.
    inversion Hd; subst. cbn in H1. destruct H1 as [b ->]. inversion Hh; subst. destruct b.
    + apply (I3 eq_refl c0). left; auto.
    + apply (I2 c0); auto. left; auto.
Qed.
(** Without interleaving there is exactly one winner. *)
Theorem C23_sequential_partial : forall e1 l1 e2 l2,
  let s := creg_run [0;0;1;1]%nat (creg_init [e1 :: l1; e2 :: l2]) in
  pcs s = [(e1 :: l1, CDone true); (e2 :: l2, CDone false)] /\ cell s = Some (e1 :: l1).
Proof. intros. cbn. auto. Qed.
Example C23_case : let s := creg_run [0;1;1;0]%nat (creg_init [[10]; [20]]) in
  cell s = Some [10] /\ pcs s = [([10], CDone true); ([20], CDone true)].
Proof. split; reflexivity. Qed.
Print Assumptions C23_refuted.
Print Assumptions C23_some_winner_partial.
Print Assumptions C23_sequential_partial.

(** ** C24 Shutdown hook signals once after the hooks; shutting down again blocks: refuted *)

(** Registering such a hook and shutting down runs the hooks, in order, and then makes the
    channel readable. *)
Theorem C24_signal_after_hooks : forall k events send m m' ch,
  ~ In send events -> RegisterAddChan k events send m = (m', Some ch) ->
  hook_exec send (ev_Call ShutdownHookerPrefix k m') ch = (events, 1%nat, false).
Proof.
  intros k events send m m' ch Hs H. unfold RegisterAddChan in H.
  destruct (ev_Register _ _ _ _) as [m1 ok] eqn:E. destruct ok; [|discriminate]. injection H as <- <-.
  unfold ev_Register in E. destruct (events ++ [send]) as [|e l] eqn:El; [destruct events; discriminate|].
  destruct (ev_Get _ _ _); [discriminate|]. injection E as <-.
  unfold ev_Call, ev_Get. rewrite full_key_idem, load_store, key_eqb_refl. rewrite <- El.
  apply hook_exec_free; auto.
Qed.
(** A taken key gives no channel and changes nothing. *)
Theorem C24_taken : forall k events send m old, ev_Get ShutdownHookerPrefix k m = Some old ->
  RegisterAddChan k events send m = (m, None).
Proof.
  intros k events send m old H. unfold RegisterAddChan, ev_Register.
  destruct (events ++ [send]) eqn:E; [destruct events; discriminate|].
  unfold ev_Get in *. rewrite full_key_idem, H. reflexivity.
Qed.
(** Shutting down again while the signal has not been read: for every hook list, stuck. *)
Theorem C24_refuted : forall send events, ~ In send events ->
  let '(_, ch, _) := hook_exec send (events ++ [send]) 0 in
  exists tr ch', hook_exec send (events ++ [send]) ch = (tr, ch', true).
Proof. intros send events H. rewrite hook_exec_free by auto. rewrite hook_exec_full by auto. eauto. Qed.
(** It blocks exactly when a signal is still unread. *)
Theorem C24_blocks_iff_partial : forall send events ch tr ch' blocked, ~ In send events ->
  hook_exec send (events ++ [send]) ch = (tr, ch', blocked) ->
  tr = events /\ (blocked = true <-> (0 < ch)%nat) /\ (0 < ch')%nat.
Proof.
  intros send events ch tr ch' b H E. destruct ch.
  - rewrite hook_exec_free in E by auto. injection E as <- <- <-. split; auto. split; [split; [discriminate|lia]|lia].
  - rewrite hook_exec_full in E by auto. injection E as <- <- <-. split; auto. split; [split; [lia|auto]|lia].
Qed.
Example C24_case : exists m', RegisterAddChan [65] [1;2] 99 [] = (m', Some 0%nat)
  /\ hook_exec 99 (ev_Call ShutdownHookerPrefix [65] m') 0 = ([1;2], 1%nat, false).
Proof. eexists. split; reflexivity. Qed.
Print Assumptions C24_signal_after_hooks.
Print Assumptions C24_taken.
Print Assumptions C24_refuted.
Print Assumptions C24_blocks_iff_partial.

(** ** C25 Submit options: last valid setting wins *)

Lemma last_set_app {V} (req : mtopt -> option V) a o :
  last_set req (a ++ [o]) = match req o with Some v => Some v | None => last_set req a end.
Proof.
  induction a as [|x a IH]; cbn; [destruct (req o); auto|]. rewrite IH.
  destruct (req o); auto.
Qed.

Theorem C25_last_wins : forall ops, let r := LoadMtOptions ops in
  ranged (fun t => t = 0 \/ t = 1) (o_NeedReport r) (last_set req_NeedReport ops) /\
  ranged (fun t => t <= 9) (o_MsgLevel r) (last_set req_MsgLevel ops) /\
  ranged (fun t => 0 <= t <= 3) (o_FeeUsertype r) (last_set req_FeeUsertype ops) /\
  ranged (fun t => t = 0 \/ t = 1) (o_FeeTerminalType r) (last_set req_FeeTerminalType ops) /\
  (match last_set req_FeeType ops with
   | None => o_FeeType r = []
   | Some s => (In s [[48;49]; [48;50]; [48;51]; [48;52]; [48;53]] -> o_FeeType r = s)
             /\ (~ In s [[48;49]; [48;50]; [48;51]; [48;52]; [48;53]] -> o_FeeType r = []) end) /\
  o_ServiceId r = text_or_empty (last_set req_ServiceId ops) /\
  o_FeeTerminalId r = text_or_empty (last_set req_FeeTerminalId ops) /\
  o_FeeCode r = text_or_empty (last_set req_FeeCode ops) /\
  o_ValidTime r = text_or_empty (last_set req_ValidTime ops) /\
  o_AtTime r = text_or_empty (last_set req_AtTime ops) /\
  o_SpSubNo r = text_or_empty (last_set req_SpSubNo ops) /\
  o_LinkID r = text_or_empty (last_set req_LinkID ops).
Proof.
  intros ops. unfold LoadMtOptions. induction ops as [|o ops IH] using rev_ind.
  - cbn. repeat split; reflexivity.
  - rewrite fold_left_app. cbn [fold_left].
    destruct (fold_left apply_opt ops mt_default) as [nr ml fu ft si fi fty fc vt atm sp li].
    rewrite !last_set_app. cbv zeta in IH |- *.
    destruct o; cbn [apply_opt req_NeedReport req_MsgLevel req_FeeUsertype req_FeeTerminalType req_ServiceId
      req_FeeTerminalId req_FeeType req_FeeCode req_ValidTime req_AtTime req_SpSubNo req_LinkID
      o_NeedReport o_MsgLevel o_FeeUsertype o_FeeTerminalType o_ServiceId o_FeeTerminalId o_FeeType o_FeeCode
      o_ValidTime o_AtTime o_SpSubNo o_LinkID] in *;
      destruct IH as (I1 & I2 & I3 & I4 & I5 & I6 & I7 & I8 & I9 & I10 & I11 & I12);
      repeat match goal with |- _ /\ _ => split end; try assumption; try reflexivity;
      cbn [ranged text_or_empty]; try (split; intros H).
    + destruct (negb _ && negb _) eqn:E; lia.
    + destruct (negb _ && negb _) eqn:E; lia.
    + destruct (negb _ && negb _ && _ && _) eqn:E; lia.
    + destruct (negb _ && negb _ && _ && _) eqn:E; lia.
    + destruct (12 <? zlen s) eqn:E; [reflexivity|]. rewrite firstn_all2; [reflexivity|unfold zlen in E; lia].
    + intros H. cbn in H. unfold beqb. repeat destruct (list_eq_dec Z.eq_dec s _); cbn; try congruence. intuition congruence.
    + intros H. cbn in H. unfold beqb. repeat destruct (list_eq_dec Z.eq_dec s _); cbn; try congruence; exfalso; apply H; intuition congruence.
    + destruct (negb _ && negb _) eqn:E; lia.
    + destruct (negb _ && negb _) eqn:E; lia.
    + destruct (9 <? l) eqn:E; lia.
    + destruct (9 <? l) eqn:E; lia.
Qed.
Example C25_case :
  let r := LoadMtOptions [ONeedReport 1; OMsgLevel 3; ONeedReport 0; OMsgLevel 10; OFeeType [48;50]; OServiceId [65]] in
  o_NeedReport r = 0 /\ o_MsgLevel r = 15 /\ o_FeeType r = [48;50] /\ o_ServiceId r = [65] /\ o_LinkID r = [].
Proof. repeat split; reflexivity. Qed.
Print Assumptions C25_last_wins.

(** ** C27 A prepared option set can be passed as an option: refuted *)

(** Whatever is passed, in whatever position, it has no effect at all. *)
Theorem C27_refuted : forall before opt after,
  LoadMtOptions (before ++ OWith opt :: after) = LoadMtOptions (before ++ after).
Proof.
  intros. unfold LoadMtOptions. rewrite !fold_left_app. cbn [fold_left].
  destruct (fold_left apply_opt before mt_default). reflexivity.
Qed.
(** In particular a prepared set is used only if it is the default set. *)
Theorem C27_only_default_partial : forall opt, LoadMtOptions [OWith opt] = opt <-> opt = mt_default.
Proof. intros opt. cbn. split; congruence. Qed.
Example C27_case : LoadMtOptions [OWith (MtOpts 1 2 3 0 [65] [] [] [] [] [] [] [])] = mt_default.
Proof. reflexivity. Qed.
Print Assumptions C27_refuted.
Print Assumptions C27_only_default_partial.
