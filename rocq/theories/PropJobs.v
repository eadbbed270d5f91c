(** * PropJobs: property C124 (the client's background jobs and the freeing of old results).
    Model: the worker pool of msc_client/bootstrap.go:134-151 with its two users: the sends of
    msc_client/cmd/client.go:28-45 and the journal of msc_client/api.go:64-80 called from the sweeper,
    session_factory.go:163-222, statement by statement.  What a job does is left to ClientModel and JournalModel. *)
From Verif Require Import Base ClientModel ClientProofs.

(** ** Model *)
(** bootstrap.go:135-138: the configured size, at least ten *)
Definition poolInit (poolSize : Z) : Z := if poolSize <? 10 then 10 else poolSize.
Inductive ujob := USend_job | USave_job (b : list nat).
(** Where the sweeper is: between rounds; visiting the entries left ([ex]: keys to delete, [b]: the batch being
    filled); in the handler's Submit with a full batch (212); in it with the last batch, the keys deleted (220);
    before the two other caches (178-181). *)
Inductive uphase :=
| UIdle | UVisit (todo : list (Z * list nat)) (ex : list Z) (b : list nat)
| UHand (b : list nat) (todo : list (Z * list nat)) (ex : list Z) | ULast (b : list nat) | URest.
(** [u_open]: the pool is not released; [u_run]: jobs with a worker; [u_wait]: senders waiting in Submit;
    [u_given], [u_lost]: the batches the pool has taken and refused; [u_rounds]: rounds done. *)
Record ustate := UState { u_open : bool; u_run : list ujob; u_wait : nat; u_ph : uphase; u_ca : caches;
  u_given : list (list nat); u_lost : list (list nat); u_rounds : nat }.
Inductive uevent :=
| USubmit                              (* the application submits a send *)
| UWake (k : nat)                      (* a waiting caller looks for a worker again *)
| UEnd (k : nat)                       (* job k ends, or panics: the pool's handler catches it (143) *)
| UStore (q : Z) (rs : list result)    (* a send stores its results *)
| UTick                                (* the ticker: a round begins if none is under way *)
| UStep (now : Z)                      (* the sweeper's next statement, with the clock *)
| URelease.                            (* the shutdown hook (148) *)
Definition u_room (cap : Z) (s : ustate) : bool := zlen (u_run s) <? cap.
(** 187-210: one entry of the query cache, [d]: the cache time (not 0) *)
Definition u_look (heap : list result) (d now : Z) (e : Z * list nat) (ex : list Z) (b : list nat) : list Z * list nat :=
  match snd e with
  | [] => (ex ++ [fst e], b)
  | p :: _ => match nth_error heap p with
              | Some r0 => if rt_send r0 + d <? now then (ex ++ [fst e], b ++ snd e) else (ex, b)
              | None => (ex, b)
              end
  end.
Definition u_give (s : ustate) (b : list nat) (ph : uphase) : ustate :=
  UState (u_open s) (u_run s ++ [USave_job b]) (u_wait s) ph (u_ca s) (u_given s ++ [b]) (u_lost s) (u_rounds s).
Definition u_drop (s : ustate) (b : list nat) (ph : uphase) : ustate :=
  UState (u_open s) (u_run s) (u_wait s) ph (u_ca s) (u_given s) (u_lost s ++ [b]) (u_rounds s).
Definition u_at (s : ustate) (ph : uphase) : ustate :=
  UState (u_open s) (u_run s) (u_wait s) ph (u_ca s) (u_given s) (u_lost s) (u_rounds s).
(** api.go:68 Submit: refused after the release (the error is dropped), waits while all workers are busy
    (bootstrap.go:141 Nonblocking false) *)
Definition u_submit (cap : Z) (s : ustate) (b : list nat) (ph : uphase) : ustate :=
  if negb (u_open s) then u_drop s b ph else if u_room cap s then u_give s b ph else s.
Definition u_sweep (cap d : Z) (s : ustate) (now : Z) : ustate :=
  match u_ph s with
  | UIdle => s
  | UVisit (e :: todo) ex b =>
    let '(ex1, b1) := u_look (ca_heap (u_ca s)) d now e ex b in
    u_at s (if 64 <=? zlen b1 then UHand b1 todo ex1 else UVisit todo ex1 b1)
  | UHand b todo ex => u_submit cap s b (UVisit todo ex [])
  | UVisit [] ex b =>
    let ca := u_ca s in
    UState (u_open s) (u_run s) (u_wait s) (if 0 <? zlen b then ULast b else URest)
      (Caches (ca_heap ca) (ca_seq ca) (ca_msg ca) (fold_left (fun m k => remove Z.eqb k m) ex (ca_query ca))) (u_given s) (u_lost s) (u_rounds s)
  | ULast b => u_submit cap s b URest
  | URest => UState (u_open s) (u_run s) (u_wait s) UIdle (u_ca s) (u_given s) (u_lost s) (S (u_rounds s))
  end.
Definition u_send (s : ustate) : ustate :=
  UState (u_open s) (u_run s ++ [USend_job]) (u_wait s) (u_ph s) (u_ca s) (u_given s) (u_lost s) (u_rounds s).
Definition u_queue (s : ustate) (n : nat) : ustate :=
  UState (u_open s) (u_run s) n (u_ph s) (u_ca s) (u_given s) (u_lost s) (u_rounds s).
Definition ustep (cap d : Z) (s : ustate) (e : uevent) : ustate :=
  match e with
  | USubmit => if negb (u_open s) then s else if u_room cap s then u_send s else u_queue s (S (u_wait s))
  | UWake _ =>
    match u_wait s with
    | O => s
    | S n => if negb (u_open s) then u_queue s n else if u_room cap s then u_queue (u_send s) n else s
    end
  | UEnd k => UState (u_open s) (firstn k (u_run s) ++ skipn (S k) (u_run s)) (u_wait s) (u_ph s) (u_ca s) (u_given s) (u_lost s) (u_rounds s)
  | UStore q rs =>
    let ca := u_ca s in let n := length (ca_heap ca) in
    UState (u_open s) (u_run s) (u_wait s) (u_ph s)
      (Caches (ca_heap ca ++ rs) (ca_seq ca) (ca_msg ca) (store_at Z.eqb q (seq n (length rs)) (ca_query ca))) (u_given s) (u_lost s) (u_rounds s)
  | UTick => match u_ph s with UIdle => u_at s (UVisit (ca_query (u_ca s)) [] []) | _ => s end
  | UStep now => u_sweep cap d s now
  | URelease => UState false (u_run s) (u_wait s) (u_ph s) (u_ca s) (u_given s) (u_lost s) (u_rounds s)
  end.
Definition urun (cap d : Z) (s : ustate) (es : list uevent) : ustate := fold_left (ustep cap d) es s.
Definition ustart : ustate := UState true [] 0 UIdle (Caches [] [] [] []) [] [] 0.

(** ** Specification *)
Definition found (s : ustate) (q : Z) : Prop := exists l, In (q, l) (ca_query (u_ca s)).
(** The sweeper is held in the pool. *)
Definition held (ph : uphase) : Prop := match ph with UHand _ _ _ | ULast _ => True | _ => False end.
Definition is_end (e : uevent) : bool := match e with UEnd _ | URelease => true | _ => false end.
Definition is_step (e : uevent) : bool := match e with UStep _ => true | _ => false end.
(** How many statements of its round the sweeper has before it, at most. *)
Definition ahead (ph : uphase) : nat :=
  match ph with UIdle => 0 | UVisit todo _ _ => 3 + 2 * length todo | UHand _ todo _ => 4 + 2 * length todo | ULast _ => 2 | URest => 1 end.
(** Whenever the sweeper moves, a worker is free. *)
Fixpoint roomy (cap d : Z) (s : ustate) (es : list uevent) : Prop :=
  match es with [] => True | e :: r => (is_step e = true -> zlen (u_run s) < cap) /\ roomy cap d (ustep cap d s e) r end.

(** ** Proofs *)
Lemma urun_app cap d s a b : urun cap d s (a ++ b) = urun cap d (urun cap d s a) b.
Proof. apply fold_left_app. Qed.
Lemma cut_le {A} k (l : list A) : zlen (firstn k l ++ skipn (S k) l) <= zlen l.
Proof. unfold zlen. rewrite app_length, firstn_length, skipn_length. lia. Qed.
Lemma zlen_snoc {A} (l : list A) x : zlen (l ++ [x]) = zlen l + 1.
Proof. unfold zlen. rewrite app_length. cbn. lia. Qed.
Lemma bound_step cap d s e : zlen (u_run s) <= cap -> zlen (u_run (ustep cap d s e)) <= cap.
Proof.
  intros H. assert (G : u_room cap s = true -> zlen (u_run s) + 1 <= cap) by (unfold u_room; rewrite Z.ltb_lt; lia).
  assert (SB : forall b ph, zlen (u_run (u_submit cap s b ph)) <= cap).
  { intros b ph. unfold u_submit. destruct (negb (u_open s)); [exact H|]. destruct (u_room cap s) eqn:E; [|exact H]. cbn [u_run u_give]. rewrite zlen_snoc. auto. }
  destruct e as [|k|k|q rs| |now|]; cbn [ustep].
  - destruct (negb (u_open s)); [exact H|]. destruct (u_room cap s) eqn:E; [|exact H]. cbn [u_run u_send]. rewrite zlen_snoc. auto.
  - destruct (u_wait s); [exact H|]. destruct (negb (u_open s)); [exact H|]. destruct (u_room cap s) eqn:E; [|exact H]. cbn [u_run u_queue u_send]. rewrite zlen_snoc. auto.
  - cbn [u_run]. pose proof (cut_le k (u_run s)). lia.
  - exact H.
  - destruct (u_ph s); exact H.
  - unfold u_sweep. destruct (u_ph s) as [|[|e todo] ex b|b todo ex|b|]; try exact H; try apply SB. destruct (u_look _ _ _ _ _ _) as [ex1 b1]. exact H.
  - exact H.
Qed.
(** At most as many jobs run at once as configured, and never more than ten if less is configured. *)
Theorem C124_bound : forall poolSize d es, zlen (u_run (urun (poolInit poolSize) d ustart es)) <= Z.max 10 poolSize.
Proof.
  intros poolSize d es. assert (E : poolInit poolSize = Z.max 10 poolSize) by (unfold poolInit; destruct (Z.ltb_spec poolSize 10); lia). rewrite E.
  assert (G : forall s, zlen (u_run s) <= Z.max 10 poolSize -> zlen (u_run (urun (Z.max 10 poolSize) d s es)) <= Z.max 10 poolSize).
  { induction es as [|e r IH]; intros s H; [exact H|]. cbn [urun fold_left]. apply IH. apply bound_step. exact H. }
  apply G. cbn. lia.
Qed.
Definition plain_ev (now : Z) (e : uevent) : bool := match e with USubmit | UWake _ | UEnd _ => true | UStep t => t =? now | _ => false end.
Definition in_round (d now : Z) (s0 s : ustate) : Prop :=
  let heap := ca_heap (u_ca s0) in
  let all := sweep_query true heap d now (ca_query (u_ca s0)) [] [] [] in
  let '(ca1, out1) := cleanQueryCacheMap true (u_ca s0) d now (ca_query (u_ca s0)) in
  u_open s = true /\ u_lost s = u_lost s0 /\
  match u_ph s with
  | UVisit todo ex b => u_ca s = u_ca s0 /\ u_rounds s = u_rounds s0 /\ exists out, u_given s = u_given s0 ++ out /\ sweep_query true heap d now todo ex b out = all
  | UHand b todo ex => u_ca s = u_ca s0 /\ u_rounds s = u_rounds s0 /\ exists out, u_given s = u_given s0 ++ out /\ sweep_query true heap d now todo ex [] (out ++ [b]) = all
  | ULast b => u_ca s = ca1 /\ u_rounds s = u_rounds s0 /\ exists out, u_given s = u_given s0 ++ out /\ out ++ [b] = out1
  | URest => u_ca s = ca1 /\ u_rounds s = u_rounds s0 /\ u_given s = u_given s0 ++ out1
  | UIdle => u_ca s = ca1 /\ u_rounds s = S (u_rounds s0) /\ u_given s = u_given s0 ++ out1
  end.
Lemma u_look_eq heap d now id l ex b : u_look heap d now (id, l) ex b =
  match l with [] => (ex ++ [id], b) | p :: _ => match nth_error heap p with Some r0 => if rt_send r0 + d <? now then (ex ++ [id], b ++ l) else (ex, b) | None => (ex, b) end end.
Proof. destruct l; reflexivity. Qed.
Lemma in_round_step cap d now s0 s e : in_round d now s0 s -> plain_ev now e = true -> in_round d now s0 (ustep cap d s e).
Proof.
  unfold in_round. destruct (cleanQueryCacheMap true (u_ca s0) d now (ca_query (u_ca s0))) as [ca1 out1] eqn:CL. unfold cleanQueryCacheMap in CL.
  set (all := sweep_query _ _ _ _ (ca_query (u_ca s0)) [] [] []) in *. intros (O & L & H) P.
  destruct e as [|k|k|q rs| |t|]; try discriminate P; cbn [ustep].
  - rewrite O. cbn [negb]. destruct (u_room cap s); cbn [u_open u_lost u_ph u_ca u_rounds u_given u_send u_queue]; exact (conj O (conj L H)).
  - destruct (u_wait s); [exact (conj O (conj L H))|]. rewrite O. cbn [negb]. destruct (u_room cap s); cbn [u_open u_lost u_ph u_ca u_rounds u_given u_send u_queue]; exact (conj O (conj L H)).
  - cbn [u_open u_lost u_ph u_ca u_rounds u_given]. exact (conj O (conj L H)).
  - cbn [plain_ev] in P. apply Z.eqb_eq in P. subst t. unfold u_sweep.
    destruct (u_ph s) as [|[|[id l] todo] ex b|b todo ex|b|] eqn:PH.
    + rewrite PH. exact (conj O (conj L H)).
    + destruct H as (C & Ro & out & G & E). cbn [sweep_query] in E. rewrite <- E in CL. injection CL as <- <-. cbn [u_open u_lost u_ph u_ca u_rounds u_given andb]. rewrite C.
      split; [exact O|]. split; [exact L|]. destruct (0 <? zlen b); (split; [reflexivity|]; split; [exact Ro|]); [exists out; auto|exact G].
    + destruct H as (C & Ro & out & G & E). rewrite C. cbn [sweep_query] in E. rewrite <- u_look_eq in E. destruct (u_look _ _ _ _ _ _) as [ex1 b1]. cbn [andb] in E.
      cbn [u_open u_lost u_ph u_ca u_rounds u_given u_at]. destruct (64 <=? zlen b1); (split; [exact O|]; split; [exact L|]; split; [exact C|]; split; [exact Ro|]; exists out; auto).
    + unfold u_submit. rewrite O. cbn [negb]. destruct (u_room cap s); [|rewrite PH; exact (conj O (conj L H))]. destruct H as (C & Ro & out & G & E). cbn [u_open u_lost u_ph u_ca u_rounds u_given u_give].
      split; [exact O|]. split; [exact L|]. split; [exact C|]. split; [exact Ro|]. exists (out ++ [b]). split; [rewrite G, app_assoc; reflexivity|exact E].
    + unfold u_submit. rewrite O. cbn [negb]. destruct (u_room cap s); [|rewrite PH; exact (conj O (conj L H))]. destruct H as (C & Ro & out & G & E). cbn [u_open u_lost u_ph u_ca u_rounds u_given u_give].
      split; [exact O|]. split; [exact L|]. split; [exact C|]. split; [exact Ro|]. rewrite G, <- app_assoc, E. reflexivity.
    + destruct H as (C & Ro & G). cbn [u_open u_lost u_ph u_ca u_rounds u_given]. rewrite Ro. auto 6.
Qed.
(** However a round is held up: when it is over, exactly the keys have left the cache and exactly the batches have
    gone to the pool that the sweeper of ClientModel takes in one step; none is refused. *)
Theorem C124_round : forall cap d s now es ca1 out1, u_ph s = UIdle -> u_open s = true -> forallb (plain_ev now) es = true ->
  cleanQueryCacheMap true (u_ca s) d now (ca_query (u_ca s)) = (ca1, out1) ->
  let s' := urun cap d s (UTick :: es) in u_ph s' = UIdle ->
  u_ca s' = ca1 /\ u_given s' = u_given s ++ out1 /\ u_lost s' = u_lost s /\ u_rounds s' = S (u_rounds s).
Proof.
  intros cap d s now es ca1 out1 P O F CL s' P'.
  assert (R0 : in_round d now s (ustep cap d s UTick)).
  { unfold in_round. rewrite CL. cbn [ustep]. rewrite P. cbn [u_open u_lost u_ph u_ca u_rounds u_given u_at]. split; [exact O|]. split; [reflexivity|]. split; [reflexivity|]. split; [reflexivity|].
    exists []. split; [rewrite app_nil_r; reflexivity|reflexivity]. }
  assert (R1 : in_round d now s s').
  { unfold s'. cbn [urun fold_left]. revert R0. generalize (ustep cap d s UTick). clear - F. induction es as [|e r IH]; intros x R0; [exact R0|].
    cbn [forallb] in F. apply andb_true_iff in F as [F1 F2]. cbn [fold_left]. apply IH; [exact F2|]. apply in_round_step; assumption. }
  unfold in_round in R1. rewrite CL, P' in R1. intuition.
Qed.
(** While a worker is free whenever the sweeper moves, a round is over after as many of its statements as it has ahead. *)
Lemma ahead_step cap d s e : (is_step e = true -> zlen (u_run s) < cap) -> u_ph s <> UIdle ->
  let s' := ustep cap d s e in
  if is_step e then (S (ahead (u_ph s')) <= ahead (u_ph s))%nat /\ (u_ph s' = UIdle -> u_rounds s' = S (u_rounds s)) /\ (u_ph s' <> UIdle -> u_rounds s' = u_rounds s)
  else u_ph s' = u_ph s /\ u_rounds s' = u_rounds s.
Proof.
  intros H P. destruct e as [|k|k|q rs| |now|]; cbn [is_step ustep].
  - destruct (negb (u_open s)); [auto|]. destruct (u_room cap s); auto.
  - destruct (u_wait s); [auto|]. destruct (negb (u_open s)); [auto|]. destruct (u_room cap s); auto.
  - auto.
  - auto.
  - destruct (u_ph s) eqn:E; [contradiction P; reflexivity|rewrite E; auto..].
  - specialize (H eq_refl).
    assert (SB : forall b ph, u_ph (u_submit cap s b ph) = ph /\ u_rounds (u_submit cap s b ph) = u_rounds s).
    { intros b ph. unfold u_submit. destruct (negb (u_open s)); [auto|]. unfold u_room. rewrite (proj2 (Z.ltb_lt _ _) H). auto. }
    unfold u_sweep. destruct (u_ph s) as [|[|e todo] ex b|b todo ex|b|] eqn:E.
    + contradiction P; reflexivity.
    + cbn [u_ph u_rounds]. destruct (0 <? zlen b); cbn [ahead length]; split; try lia; split; congruence.
    + destruct (u_look _ _ _ _ _ _) as [ex1 b1]. cbn [u_ph u_at u_rounds]. destruct (64 <=? zlen b1); cbn [ahead length]; split; try lia; split; congruence.
    + destruct (SB b (UVisit todo ex [])) as [-> ->]. cbn [ahead]. split; [lia|]. split; congruence.
    + destruct (SB b URest) as [-> ->]. cbn [ahead]. split; [lia|]. split; congruence.
    + cbn [u_ph u_rounds ahead]. split; [lia|]. split; congruence.
  - auto.
Qed.
Theorem C124_partial : forall cap d es s, u_ph s <> UIdle -> roomy cap d s es -> (ahead (u_ph s) <= length (filter is_step es))%nat ->
  exists a b, es = a ++ b /\ u_ph (urun cap d s a) = UIdle /\ u_rounds (urun cap d s a) = S (u_rounds s).
Proof.
  intros cap d. induction es as [|e r IH]; intros s P Ro N.
  - exfalso. destruct (u_ph s) as [|todo ex b|b todo ex|b|] eqn:E; cbn in N; try lia. contradiction P; reflexivity.
  - cbn [roomy] in Ro. destruct Ro as [Ro1 Ro]. pose proof (ahead_step cap d s e Ro1 P) as A. cbv zeta in A. cbn [filter] in N. destruct (is_step e) eqn:E.
    + destruct A as (A1 & A2 & A3). cbn [length] in N.
      assert (X : u_ph (ustep cap d s e) = UIdle \/ u_ph (ustep cap d s e) <> UIdle) by (destruct (u_ph (ustep cap d s e)); [left; reflexivity|right; discriminate..]).
      destruct X as [X|X]; [exists [e], r; split; [reflexivity|]; split; [exact X|exact (A2 X)]|].
      destruct (IH _ X Ro ltac:(lia)) as (a & b & -> & I1 & I2). exists (e :: a), b. split; [reflexivity|]. split; [exact I1|]. cbn [urun fold_left]. unfold urun in I2. rewrite I2, (A3 X). reflexivity.
    + destruct A as [A1 A2]. destruct (IH (ustep cap d s e)) as (a & b & -> & I1 & I2); [rewrite A1; exact P|exact Ro|rewrite A1; exact N|].
      exists (e :: a), b. split; [reflexivity|]. split; [exact I1|]. cbn [urun fold_left]. unfold urun in I2. rewrite I2, A2. reflexivity.
Qed.
(** Refuted: as long as all workers are busy and none of their jobs ends, the sweeper stays where it is, whatever
    else happens: no batch is taken, no round is finished, and each result found before can still be asked for. *)
Theorem C124_refuted : forall cap d es s, u_open s = true -> zlen (u_run s) = cap -> held (u_ph s) -> existsb is_end es = false ->
  let s' := urun cap d s es in u_ph s' = u_ph s /\ u_given s' = u_given s /\ u_run s' = u_run s /\ u_rounds s' = u_rounds s /\ (forall q, found s q -> found s' q).
Proof.
  intros cap d. induction es as [|e r IH]; intros s O F H N; cbv zeta; [auto 6|]. cbn [existsb] in N. apply orb_false_iff in N as [N1 N2]. cbn [urun fold_left].
  assert (FR : u_room cap s = false) by (unfold u_room; rewrite Z.ltb_ge; lia).
  assert (A : u_open (ustep cap d s e) = true /\ u_run (ustep cap d s e) = u_run s /\ u_ph (ustep cap d s e) = u_ph s /\ u_given (ustep cap d s e) = u_given s /\
    u_rounds (ustep cap d s e) = u_rounds s /\ (forall q, found s q -> found (ustep cap d s e) q)).
  { destruct e as [|k|k|q rs| |now|]; try discriminate N1; cbn [ustep].
    - rewrite O, FR. cbn [negb]. repeat split; auto.
    - destruct (u_wait s); [repeat split; auto|]. rewrite O, FR. cbn [negb]. repeat split; auto.
    - cbn [u_open u_run u_ph u_given u_rounds]. repeat split; auto. intros q0 [l I]. unfold found. cbn [u_ca ca_query].
      destruct (Z.eq_dec q0 q) as [->|NE]; [eexists|exists l]; apply (in_store Z.eqb Z.eqb_eq); [left; split; reflexivity|right; split; assumption].
    - destruct (u_ph s) eqn:E; [destruct H|..]; rewrite E; repeat split; auto.
    - unfold u_sweep. destruct (u_ph s) as [|todo ex b|b todo ex|b|] eqn:E; try destruct H; unfold u_submit; rewrite O, FR; cbn [negb]; rewrite E; repeat split; auto. }
  destruct A as (A1 & A2 & A3 & A4 & A5 & A6). destruct (IH (ustep cap d s e)) as (B1 & B2 & B3 & B4 & B5); [exact A1|rewrite A2; exact F|rewrite A3; exact H|exact N2|].
  unfold urun in *. split; [congruence|]. split; [congruence|]. split; [congruence|]. split; [congruence|]. intros q Q. apply B5, A6, Q.
Qed.
(** The batch the sweeper holds in the pool. *)
Definition holds (ph : uphase) (b : list nat) : Prop := match ph with UHand x _ _ | ULast x => x = b | _ => False end.
(** As soon as one job ends, the pool takes the batch the sweeper is held with, or the next waiting send. *)
Theorem C124_resumes_partial : forall poolSize d es k now, let cap := poolInit poolSize in let s := urun cap d ustart es in
  u_open s = true -> (k < length (u_run s))%nat ->
  (forall b, holds (u_ph s) b -> let s' := urun cap d s [UEnd k; UStep now] in
    u_given s' = u_given s ++ [b] /\ u_lost s' = u_lost s /\ ~ held (u_ph s') /\ u_run s' = firstn k (u_run s) ++ skipn (S k) (u_run s) ++ [USave_job b] /\ u_wait s' = u_wait s) /\
  (forall n, u_wait s = S n -> let s' := urun cap d s [UEnd k; UWake 0] in
    u_wait s' = n /\ u_run s' = firstn k (u_run s) ++ skipn (S k) (u_run s) ++ [USend_job] /\ u_ph s' = u_ph s /\ u_given s' = u_given s).
Proof.
  intros poolSize d es k now cap s O K. assert (B : zlen (u_run s) <= cap).
  { unfold s, cap. pose proof (C124_bound poolSize d es). unfold poolInit in *. destruct (Z.ltb_spec poolSize 10); lia. }
  clearbody s cap. assert (R : zlen (firstn k (u_run s) ++ skipn (S k) (u_run s)) < cap) by (unfold zlen in *; rewrite app_length, firstn_length, skipn_length; lia).
  set (s1 := ustep cap d s (UEnd k)). assert (R1 : u_room cap s1 = true) by (apply Z.ltb_lt; exact R). assert (O1 : u_open s1 = true) by exact O. split.
  - intros b H. cbv zeta. change (urun cap d s [UEnd k; UStep now]) with (u_sweep cap d s1 now). unfold u_sweep. change (u_ph s1) with (u_ph s).
    destruct (u_ph s) as [|todo ex x|x todo ex|x|]; try contradiction; cbn in H; subst x; unfold u_submit; rewrite O1, R1; cbn [negb u_give u_given u_lost u_run u_wait u_ph held s1 ustep]; rewrite <- app_assoc; auto 6.
  - intros n H. cbv zeta. change (urun cap d s [UEnd k; UWake 0]) with (ustep cap d s1 (UWake 0)). cbn [ustep]. change (u_wait s1) with (u_wait s). rewrite H, O1, R1. cbn [negb u_queue u_send u_given u_run u_wait u_ph s1 ustep]. rewrite <- app_assoc. auto.
Qed.
(** The state is reached with every pool size: one result, as many sends as there are workers, and a round of the
    sweeper when the result is old: it is taken out of the cache but not written, and the other two caches wait. *)
Lemma fill_pool cap d : forall n s, u_open s = true -> zlen (u_run s) + Z.of_nat n <= cap ->
  urun cap d s (repeat USubmit n) = UState true (u_run s ++ repeat USend_job n) (u_wait s) (u_ph s) (u_ca s) (u_given s) (u_lost s) (u_rounds s).
Proof.
  induction n as [|n IH]; intros s O L.
  - cbn [repeat urun fold_left]. rewrite app_nil_r. destruct s. cbn in *. congruence.
  - change (repeat USubmit (S n)) with ([USubmit] ++ repeat USubmit n). rewrite urun_app. cbn [urun fold_left]. assert (R : u_room cap s = true) by (unfold u_room; rewrite Z.ltb_lt; lia).
    change (ustep cap d s USubmit) with (if negb (u_open s) then s else if u_room cap s then u_send s else u_queue s (S (u_wait s))). rewrite O, R. cbn [negb].
    rewrite IH; [|exact O|cbn [u_run u_send]; rewrite zlen_snoc; lia]. cbn [u_run u_send u_wait u_ph u_ca u_given u_lost u_rounds]. rewrite <- app_assoc. reflexivity.
Qed.
Theorem C124_refuted_reached : forall poolSize d q r now, rt_send r + d < now ->
  let cap := poolInit poolSize in
  let s := urun cap d ustart ([UStore q [r]] ++ repeat USubmit (Z.to_nat cap) ++ [UTick; UStep now; UStep now]) in
  u_open s = true /\ zlen (u_run s) = cap /\ u_ph s = ULast [0%nat] /\ ~ found s q /\ u_given s = [] /\ u_rounds s = 0%nat.
Proof.
  intros poolSize d q r now H cap s. assert (C : 10 <= cap) by (unfold cap, poolInit; destruct (Z.ltb_spec poolSize 10); lia).
  unfold s. rewrite urun_app, urun_app. rewrite fill_pool; [|reflexivity|cbn; rewrite Z2Nat.id; lia]. clear s. clearbody cap.
  cbn. rewrite (proj2 (Z.ltb_lt _ _) H). cbn. rewrite Z.eqb_refl. cbn. split; [reflexivity|]. split; [unfold zlen; rewrite repeat_length, Z2Nat.id; lia|]. split; [reflexivity|].
  split; [intros [l []]|]. split; reflexivity.
Qed.
(** Two results are stored, ten sends run, the sweeper waits with the old one; a send ends, the sweeper goes on and
    the round is over; the younger result is kept. *)
Example C124_case :
  let r t := Result 0 [49] 7 0 [] [] t 0 0 in let cap := poolInit 3 in
  let a := [UStore 5 [r 100]; UStore 6 [r 900]] ++ repeat USubmit 11 ++ [UTick] in
  let s1 := urun cap 500 ustart (a ++ repeat (UStep 1000) 5) in
  let s2 := urun cap 500 s1 [UEnd 0; UStep 1000; UStep 1000] in
  zlen (u_run s1) = 10 /\ u_wait s1 = 1%nat /\ u_ph s1 = ULast [0%nat] /\ u_given s1 = [] /\
  u_ph s2 = UIdle /\ u_given s2 = [[0%nat]] /\ u_rounds s2 = 1%nat /\ map fst (ca_query (u_ca s2)) = [6] /\ zlen (u_run s2) = 10.
Proof. vm_compute. repeat split; reflexivity. Qed.
Example C124_case_resumes : let r t := Result 0 [49] 7 0 [] [] t 0 0 in
  let s := urun 10 500 ustart ([UStore 5 [r 100]; UStore 6 [r 900]] ++ repeat USubmit 11 ++ [UTick] ++ repeat (UStep 1000) 5) in
  u_open s = true /\ (4 < length (u_run s))%nat /\ holds (u_ph s) [0%nat] /\ u_wait s = 1%nat.
Proof. vm_compute. repeat split; lia. Qed.
Example C124_case_roomy : let r t := Result 0 [49] 7 0 [] [] t 0 0 in
  let s := urun 10 500 ustart [UStore 5 [r 100]; UStore 6 [r 900]; USubmit; UTick] in
  u_ph s <> UIdle /\ roomy 10 500 s (repeat (UStep 1000) 7) /\ (ahead (u_ph s) <= length (filter is_step (repeat (UStep 1000) 7)))%nat.
Proof. vm_compute. split; [discriminate|]. split; [|lia]. repeat split; auto. Qed.
Print Assumptions C124_bound.
Print Assumptions C124_round.
Print Assumptions C124_partial.
Print Assumptions C124_refuted.
Print Assumptions C124_resumes_partial.
Print Assumptions C124_refuted_reached.
