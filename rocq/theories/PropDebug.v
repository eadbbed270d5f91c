(** * PropDebug: property C129 (the profiling interface beside the services).
    Model: the start of the server process, msc_server/cmd/gosmc.go:19-29 (main), 57-67 (pprofDebug) and
    msc_server/server/server.go:42-55 (Start): main starts one goroutine after the other, each of them opens its port
    and serves until it ends.  What a service does with a connection is in the server models; signals are in MainModel,
    the crash of an event loop in WholeModel.  The settings are given as read (Server.Pprof.Enable, .Port,
    Server.<name>.Port). *)
From Coq Require Import Permutation.
From Verif Require Import Base.

(** ** Model *)
Inductive owner := Debug | Service (k : nat).
Record ports := Ports { d_on : bool; d_port : Z; d_services : nat -> Z }.
(** gosmc.go:24-28: what main starts, in this order *)
Definition d_plan (c : ports) : list owner := (if d_on c then [Debug] else []) ++ [Service 0; Service 1; Service 2].
Definition d_wants (c : ports) (o : owner) : Z := match o with Debug => d_port c | Service k => d_services c k end.
(** [d_next]: not yet started by main; [d_ready]: started, not yet at its port; [d_open]: serving, with its port;
    [d_end]: who ended the process with log.Fatalf (gosmc.go:63, server.go:53). *)
Record booting := Booting { d_next : list owner; d_ready : list owner; d_open : list (owner * Z); d_end : option owner }.
Definition booted (c : ports) : booting := Booting (d_plan c) [] [] None.
Inductive dev :=
| DMain                          (* main starts the next goroutine *)
| DListen (o : owner) (pick : Z) (* a goroutine opens its port; [pick]: the port the system chooses for port 0 *)
| DEnds (o : owner).             (* an open listener returns with an error *)
Definition owner_eqb (a b : owner) : bool := match a, b with Debug, Debug => true | Service i, Service j => Nat.eqb i j | _, _ => false end.
Definition d_without (o : owner) (l : list owner) : list owner := filter (fun x => negb (owner_eqb x o)) l.
(** The system's answer to a request to listen: no such port, or somebody listens there ([taken]: other processes). *)
Definition d_free (taken : Z -> bool) (s : booting) (p : Z) : bool := (1 <=? p) && (p <=? 65535) && negb (taken p) && negb (existsb (fun x => snd x =? p) (d_open s)).
Definition dstep (taken : Z -> bool) (c : ports) (s : booting) (e : dev) : booting :=
  match d_end s with
  | Some _ => s
  | None =>
    match e with
    | DMain => match d_next s with [] => s | o :: r => Booting r (d_ready s ++ [o]) (d_open s) None end
    | DListen o pick =>
      if existsb (owner_eqb o) (d_ready s) then
        let p := d_wants c o in
        if p =? 0 then if d_free taken s pick then Booting (d_next s) (d_without o (d_ready s)) (d_open s ++ [(o, pick)]) None else s
        else if d_free taken s p then Booting (d_next s) (d_without o (d_ready s)) (d_open s ++ [(o, p)]) None
        else Booting (d_next s) (d_without o (d_ready s)) (d_open s) (Some o)
      else s
    | DEnds o => if existsb (fun x => owner_eqb o (fst x)) (d_open s) then Booting (d_next s) (d_ready s) (filter (fun x => negb (owner_eqb o (fst x))) (d_open s)) (Some o) else s
    end
  end.
Definition drun (taken : Z -> bool) (c : ports) (es : list dev) : booting := fold_left (dstep taken c) es (booted c).
(** The host part of the addresses: gosmc.go:62 ":%d", server.go:45 "%s://:%d": empty.  net.Listen: an empty host is
    every address of the machine; a named one, like the localhost of the log line (61), that one only. *)
Definition d_host (o : owner) : bytes := [].
Definition d_hears (host : bytes) (from_here : bool) : bool := match host with [] => true | _ => from_here end.
(** Who answers a request to port [p]. *)
Definition d_answers (s : booting) (from_here : bool) (p : Z) : option owner :=
  match d_end s with
  | Some _ => None
  | None => match find (fun x => snd x =? p) (d_open s) with Some (o, _) => if d_hears (d_host o) from_here then Some o else None | None => None end
  end.

(** ** Specification *)
Definition usable (taken : Z -> bool) (p : Z) : Prop := 1 <= p <= 65535 /\ taken p = false.
Definition serves (s : booting) (o : owner) (p : Z) : Prop := d_end s = None /\ In (o, p) (d_open s).
(** Who is to serve, and where. *)
Definition asked_for (c : ports) (o : owner) : Prop := match o with Debug => d_on c = true | Service k => (k < 3)%nat end.
Definition port_of (c : ports) (o : owner) : Z := match o with Debug => d_port c | Service k => d_services c k end.
(** Its goroutine has been started and has been at its port. *)
Definition has_run (s : booting) (o : owner) : Prop := ~ In o (d_next s) /\ ~ In o (d_ready s).
Definition is_ends (e : dev) : bool := match e with DEnds _ => true | _ => false end.

(** ** Proofs *)
Lemma owner_eqb_iff a b : owner_eqb a b = true <-> a = b.
Proof. destruct a, b; cbn; try (split; congruence). rewrite Nat.eqb_eq. split; congruence. Qed.
Lemma in_without o l x : In x (d_without o l) <-> In x l /\ x <> o.
Proof. unfold d_without. rewrite filter_In, negb_true_iff, <- not_true_iff_false, owner_eqb_iff. reflexivity. Qed.
Lemma ready_iff o l : existsb (owner_eqb o) l = true <-> In o l.
Proof. rewrite existsb_exists. split; [intros (x & I & E); apply owner_eqb_iff in E; subst; exact I|intros I; exists o; split; [exact I|apply owner_eqb_iff; reflexivity]]. Qed.
Lemma free_iff taken s p : d_free taken s p = true <-> usable taken p /\ forall o, ~ In (o, p) (d_open s).
Proof.
  unfold d_free, usable. rewrite !andb_true_iff, !negb_true_iff, !Z.leb_le. assert (X : existsb (fun x : owner * Z => snd x =? p) (d_open s) = false <-> forall o, ~ In (o, p) (d_open s)).
  { rewrite <- not_true_iff_false, existsb_exists. split; [intros N o I; apply N; exists (o, p); split; [exact I|apply Z.eqb_refl]|intros N ([o q] & I & E); cbn in E; apply Z.eqb_eq in E; subst; exact (N o I)]. }
  rewrite X. tauto.
Qed.
(** Everyone of the plan is at one place, and each port has one listener. *)
Definition d_inv (c : ports) (s : booting) : Prop :=
  NoDup (map snd (d_open s)) /\ NoDup (d_next s ++ d_ready s ++ map fst (d_open s)) /\ (forall o p, In (o, p) (d_open s) -> d_wants c o = 0 \/ d_wants c o = p) /\
  (forall o, In o (d_next s ++ d_ready s ++ map fst (d_open s)) -> In o (d_plan c)) /\
  (d_end s = None -> forall o, In o (d_plan c) -> In o (d_next s ++ d_ready s ++ map fst (d_open s))).
Lemma nodup_mid {A} (a b : list A) x : NoDup (a ++ b) -> ~ In x (a ++ b) -> NoDup (a ++ x :: b).
Proof. intros N I. apply (Permutation_NoDup (l := x :: a ++ b)); [apply Permutation_middle|]. constructor; assumption. Qed.
Lemma nodup_right {A} (a b : list A) : NoDup (a ++ b) -> NoDup b.
Proof. induction a as [|x a IH]; cbn; [auto|]. inversion 1; auto. Qed.
Lemma nodup_left {A} (a b : list A) : NoDup (a ++ b) -> NoDup a.
Proof. induction a as [|x a IH]; cbn; intros N; [constructor|]. inversion N as [|? ? N1 N2]; subst. constructor; [rewrite in_app_iff in N1; tauto|auto]. Qed.
Lemma filter_keep_nodup {A B} (f : A -> B) (p : A -> bool) l : NoDup (map f l) -> NoDup (map f (filter p l)).
Proof. induction l as [|x l IH]; cbn; intros N; [constructor|]. inversion N as [|? ? N1 N2]; subst. destruct (p x); [|auto]. cbn. constructor; [|auto]. intros I. apply N1. apply in_map_iff in I as (y & E & I). apply filter_In in I as [I _]. apply in_map_iff. eauto. Qed.
Lemma without_perm o l : NoDup l -> In o l -> Permutation l (o :: d_without o l).
Proof.
  intros N I. apply NoDup_Permutation; [exact N| |].
  - constructor; [rewrite in_without; tauto|]. unfold d_without. clear I. induction N as [|x l X N IH]; cbn; [constructor|]. destruct (negb (owner_eqb x o)); [|exact IH]. constructor; [|exact IH]. rewrite filter_In. tauto.
  - intros x. cbn. rewrite in_without. split; [|intros [<-|[J _]]; assumption]. intros J. destruct (owner_eqb x o) eqn:E; [apply owner_eqb_iff in E; auto|]. right. split; [exact J|]. intros ->. rewrite (proj2 (owner_eqb_iff o o) eq_refl) in E. discriminate E.
Qed.
Lemma moved c s o : d_inv c s -> In o (d_ready s) -> forall q, Permutation (d_next s ++ d_ready s ++ map fst (d_open s)) (d_next s ++ d_without o (d_ready s) ++ map fst (d_open s ++ [(o, q)])).
Proof.
  intros (_ & N & _) I q. apply Permutation_app_head. rewrite map_app. cbn [map fst].
  assert (Nr : NoDup (d_ready s)) by (apply nodup_right in N; apply nodup_left in N; exact N).
  etransitivity; [apply Permutation_app_tail; apply (without_perm o); assumption|]. cbn [app]. etransitivity; [apply Permutation_cons_append|]. rewrite app_assoc. reflexivity.
Qed.
Lemma plan_nodup c : NoDup (d_plan c).
Proof. unfold d_plan. destruct (d_on c); cbn; repeat constructor; cbn; intuition discriminate. Qed.
Lemma d_inv_step taken c s e : d_inv c s -> d_inv c (dstep taken c s e).
Proof.
  intros V. unfold dstep. destruct (d_end s) eqn:En; [exact V|]. destruct e as [|o pick|o].
  - destruct (d_next s) as [|o r] eqn:Nx; [exact V|]. destruct V as (P & N & W & A & B). unfold d_inv in *. cbn [d_open d_next d_ready d_end] in *. rewrite Nx in *.
    assert (Pm : Permutation ((o :: r) ++ d_ready s ++ map fst (d_open s)) (r ++ (d_ready s ++ [o]) ++ map fst (d_open s))).
    { rewrite <- app_assoc. cbn [app]. etransitivity; [|apply Permutation_app_head; apply Permutation_middle]. apply Permutation_middle. }
    split; [exact P|]. split; [eapply Permutation_NoDup; [exact Pm|exact N]|]. split; [exact W|]. split.
    + intros x I. apply A. eapply Permutation_in; [symmetry; exact Pm|exact I].
    + intros _ x I. eapply Permutation_in; [exact Pm|]. apply B; [exact En|exact I].
  - destruct (existsb (owner_eqb o) (d_ready s)) eqn:R; [|exact V]. apply ready_iff in R. assert (Go : forall q, (d_wants c o = 0 \/ d_wants c o = q) -> d_free taken s q = true -> d_inv c (Booting (d_next s) (d_without o (d_ready s)) (d_open s ++ [(o, q)]) None)).
    { intros q Q F. pose proof (moved c s o V R q) as Pm. destruct V as (P & N & W & A & B). apply free_iff in F as [_ F]. unfold d_inv. cbn [d_open d_next d_ready d_end]. split; [|split; [|split; [|split]]].
      - rewrite map_app. cbn [map snd]. apply nodup_mid; rewrite app_nil_r; [exact P|]. intros I. apply in_map_iff in I as ([x y] & E & I). cbn in E. subst y. exact (F x I).
      - eapply Permutation_NoDup; [exact Pm|exact N].
      - intros x y I. apply in_app_or in I as [I|[[= <- <-]|[]]]; [apply (W x y I)|exact Q].
      - intros x I. apply A. eapply Permutation_in; [symmetry; exact Pm|exact I].
      - intros _ x I. eapply Permutation_in; [exact Pm|]. apply B; [exact En|exact I]. }
    cbv zeta. destruct (Z.eqb_spec (d_wants c o) 0) as [Z0|Z0].
    + destruct (d_free taken s pick) eqn:F; [|exact V]. apply Go; auto.
    + destruct (d_free taken s (d_wants c o)) eqn:F; [apply Go; auto|]. destruct V as (P & N & W & A & B). unfold d_inv. cbn [d_open d_next d_ready d_end]. split; [exact P|]. split; [|split; [exact W|split; [|discriminate]]].
      * assert (Pm : Permutation (d_next s ++ d_ready s ++ map fst (d_open s)) (o :: d_next s ++ d_without o (d_ready s) ++ map fst (d_open s))).
        { assert (Nr : NoDup (d_ready s)) by (apply nodup_right in N; apply nodup_left in N; exact N). etransitivity; [apply Permutation_app_head; apply Permutation_app_tail; apply (without_perm o); assumption|]. cbn [app]. symmetry. apply Permutation_middle. }
        apply (Permutation_NoDup Pm) in N. inversion N; assumption.
      * intros x I. apply A. rewrite !in_app_iff in *. rewrite in_without in I. tauto.
  - destruct (existsb _ (d_open s)) eqn:X; [|exact V]. destruct V as (P & N & W & A & B). unfold d_inv. cbn [d_open d_next d_ready d_end]. split; [apply filter_keep_nodup; exact P|]. split; [|split; [|split; [|discriminate]]].
    + assert (Sub : forall (a b : list owner), NoDup (a ++ b) -> forall b', NoDup b' -> incl b' b -> NoDup (a ++ b')).
      { induction a as [|x a IH]; cbn; intros b Nb b' Nb' I; [exact Nb'|]. inversion Nb as [|? ? N1 N2]; subst. constructor; [|apply (IH b); assumption]. rewrite in_app_iff in *. intros [J|J]; apply N1; auto. }
      rewrite app_assoc in *. apply (Sub _ _ N); [apply filter_keep_nodup; apply nodup_right in N; exact N|]. intros x I. apply in_map_iff in I as (y & E & I). apply filter_In in I as [I _]. apply in_map_iff. eauto.
    + intros x y I. apply filter_In in I as [I _]. exact (W x y I).
    + intros x I. apply A. rewrite !in_app_iff in *. destruct I as [I|[I|I]]; auto. right. right. apply in_map_iff in I as (y & E & I). apply filter_In in I as [I _]. apply in_map_iff. eauto.
Qed.
Lemma d_inv_run taken c es : d_inv c (drun taken c es).
Proof.
  unfold drun. assert (G : forall s, d_inv c s -> d_inv c (fold_left (dstep taken c) es s)) by (induction es as [|e es IH]; intros s V; [exact V|]; apply IH; apply d_inv_step; exact V). apply G.
  split; [constructor|]. split; [cbn; rewrite app_nil_r; apply plan_nodup|]. split; [intros ? ? []|]. split; [cbn; intros o; rewrite app_nil_r; auto|]. intros _ o I. cbn. rewrite app_nil_r. exact I.
Qed.
Lemma find_port (l : list (owner * Z)) o p : NoDup (map snd l) -> In (o, p) l -> find (fun x => snd x =? p) l = Some (o, p).
Proof.
  induction l as [|[x q] l IH]; intros N I; [destruct I|]. cbn. inversion N as [|? ? N1 N2]; subst. destruct (Z.eqb_spec q p) as [->|Q].
  - destruct I as [E|I]; [congruence|]. exfalso. apply N1. apply in_map_iff. exists (o, p). auto.
  - destruct I as [[= -> ->]|I]; [congruence|]. apply IH; assumption.
Qed.
(** Who listens answers everybody. *)
Theorem C129_refuted_anywhere : forall taken c es p, serves (drun taken c es) Debug p -> forall from_here, d_answers (drun taken c es) from_here p = Some Debug.
Proof. intros taken c es p [E I] h. unfold d_answers. rewrite E. rewrite (find_port _ Debug p); [reflexivity| |exact I]. apply (d_inv_run taken c es). Qed.
Theorem C129_refuted_reached : forall taken p services, usable taken p -> serves (drun taken (Ports true p services) [DMain; DListen Debug 0]) Debug p.
Proof.
  intros taken p services U. unfold drun. cbn [fold_left]. unfold dstep. cbn [booted d_end d_plan d_on app d_next d_ready existsb owner_eqb orb d_wants d_port d_open].
  destruct (Z.eqb_spec p 0) as [->|N]; [destruct U; lia|]. rewrite (proj2 (free_iff taken _ p)); [|split; [exact U|intros o []]]. split; [reflexivity|]. left. reflexivity.
Qed.
Lemma ended_stays taken c es : forall s o, d_end s = Some o -> fold_left (dstep taken c) es s = s.
Proof. induction es as [|e es IH]; intros s o E; [reflexivity|]. cbn. assert (X : dstep taken c s e = s) by (unfold dstep; rewrite E; reflexivity). rewrite X. apply (IH s o E). Qed.
(** If the interface cannot be opened, because of another process or of one of the services, the process ends with all
    its services, at whatever moment of their life that is. *)
Theorem C129_refuted_ends : forall taken c es pick after, let s := drun taken c es in
  d_end s = None -> In Debug (d_ready s) -> d_port c <> 0 -> (~ usable taken (d_port c) \/ exists k, In (Service k, d_port c) (d_open s)) ->
  let s' := drun taken c (es ++ DListen Debug pick :: after) in d_end s' = Some Debug /\ forall h p, d_answers s' h p = None.
Proof.
  intros taken c es pick after s E R Z0 F s'. assert (X : s' = dstep taken c s (DListen Debug pick) /\ d_end s' = Some Debug).
  { assert (Y : d_end (dstep taken c s (DListen Debug pick)) = Some Debug).
    { unfold dstep. rewrite E, (proj2 (ready_iff Debug (d_ready s)) R). cbn [d_wants]. destruct (Z.eqb_spec (d_port c) 0); [contradiction|]. destruct (d_free taken s (d_port c)) eqn:Fr; [|reflexivity]. exfalso. apply free_iff in Fr as [U N]. destruct F as [F|(k & F)]; [exact (F U)|exact (N _ F)]. }
    assert (Q : s' = dstep taken c s (DListen Debug pick)) by (unfold s', drun; rewrite fold_left_app; cbn [fold_left]; apply (ended_stays taken c after _ Debug Y)). split; [exact Q|]. rewrite Q. exact Y. }
  destruct X as [_ X]. split; [exact X|]. intros h p. unfold d_answers. rewrite X. reflexivity.
Qed.
(** The interface set to the port of a service: once both goroutines have been at it, the process has ended. *)
Theorem C129_refuted_same : forall taken c es k, d_on c = true -> (k < 3)%nat -> d_services c k = d_port c -> d_port c <> 0 ->
  let s := drun taken c es in has_run s Debug -> has_run s (Service k) -> d_end s <> None.
Proof.
  intros taken c es k On K Same Z0 s [D1 D2] [S1 S2] E. destruct (d_inv_run taken c es) as (P & N & W & A & B). fold s in P, N, W, A, B.
  assert (G : forall o, In o (d_plan c) -> ~ In o (d_next s) -> ~ In o (d_ready s) -> d_wants c o = d_port c -> In (o, d_port c) (d_open s)).
  { intros o Io M1 M2 Wo. pose proof (B E o Io) as X. rewrite !in_app_iff in X. destruct X as [X|[X|X]]; try contradiction. apply in_map_iff in X as ([x q] & Ex & X). cbn in Ex. subst x. destruct (W o q X); [congruence|]. congruence. }
  assert (I1 : In (Debug, d_port c) (d_open s)) by (apply G; auto; unfold d_plan; rewrite On; left; reflexivity).
  assert (I2 : In (Service k, d_port c) (d_open s)) by (apply G; auto; unfold d_plan; rewrite On; destruct k as [|[|[|k]]]; cbn; auto; lia).
  pose proof (find_port _ _ _ P I1) as F1. pose proof (find_port _ _ _ P I2) as F2. congruence.
Qed.
(** Switched off, it is not there: no port but those of the services is opened, nobody is answered by it, and it never
    ends the process, whatever port it is set to. *)
Theorem C129_off : forall taken c es, d_on c = false -> let s := drun taken c es in
  d_end s <> Some Debug /\ (forall h p, d_answers s h p <> Some Debug) /\ (forall p, s = drun taken (Ports false p (d_services c)) es).
Proof.
  intros taken c es Off s.
  assert (V : ~ In Debug (d_next s ++ d_ready s ++ map fst (d_open s))).
  { intros I. destruct (d_inv_run taken c es) as (_ & _ & _ & A & _). apply A in I. unfold d_plan in I. rewrite Off in I. cbn in I. intuition discriminate. }
  assert (Q : forall p, s = drun taken (Ports false p (d_services c)) es /\ d_end s <> Some Debug).
  { intros p. clear V. subst s. induction es as [|e es IH] using rev_ind; [split; [unfold drun, booted, d_plan; cbn; rewrite Off; reflexivity|discriminate]|]. destruct IH as [IH1 IH2]. unfold drun in *. rewrite !fold_left_app. cbn [fold_left]. rewrite <- IH1.
    assert (NR : ~ In Debug (d_next (fold_left (dstep taken c) es (booted c)) ++ d_ready (fold_left (dstep taken c) es (booted c)) ++ map fst (d_open (fold_left (dstep taken c) es (booted c))))).
    { intros I. destruct (d_inv_run taken c es) as (_ & _ & _ & A & _). unfold drun in A. apply A in I. unfold d_plan in I. rewrite Off in I. cbn in I. intuition discriminate. }
    set (t := fold_left (dstep taken c) es (booted c)) in *. clearbody t. clear IH1. rewrite !in_app_iff in NR. unfold dstep. destruct (d_end t) as [x|] eqn:Et; [split; [reflexivity|rewrite Et; exact IH2]|]. destruct e as [|o pick|o].
    - split; [reflexivity|]. destruct (d_next t); [rewrite Et|]; discriminate.
    - destruct (existsb (owner_eqb o) (d_ready t)) eqn:R; [|split; [reflexivity|rewrite Et; discriminate]]. apply ready_iff in R. destruct o as [|k]; [exfalso; tauto|]. cbn [d_wants d_services]. split; [reflexivity|].
      cbv zeta. destruct (d_services c k =? 0); [destruct (d_free taken t pick); [discriminate|rewrite Et; discriminate]|]. destruct (d_free taken t (d_services c k)); discriminate.
    - split; [reflexivity|]. destruct (existsb _ (d_open t)) eqn:X; [|rewrite Et; discriminate]. intros Y. injection Y as ->. apply NR. right. right. apply existsb_exists in X as ([x q] & I & E). change (owner_eqb Debug x = true) in E. apply owner_eqb_iff in E. subst x. apply in_map_iff. exists (Debug, q). auto. }
  split; [exact (proj2 (Q 0))|]. split; [|intros p; exact (proj1 (Q p))]. intros h p. unfold d_answers. destruct (d_end s); [discriminate|]. destruct (find _ (d_open s)) as [[o q]|] eqn:Fd; [|discriminate]. apply find_some in Fd as [I _].
  destruct (d_hears (d_host o) h); [|discriminate]. intros [= ->]. apply V. rewrite !in_app_iff. right. right. apply in_map_iff. exists (Debug, q). auto.
Qed.
Lemma plan_iff c o : In o (d_plan c) <-> asked_for c o.
Proof. unfold d_plan. rewrite in_app_iff. destruct o as [|k]; cbn; [destruct (d_on c); cbn; intuition discriminate|]. destruct (d_on c), k as [|[|[|k]]]; cbn; intuition (try discriminate; try lia). Qed.
Lemma serve_all : forall taken c es, (forall o, In o (d_plan c) -> usable taken (d_wants c o)) ->
  (forall a b, In a (d_plan c) -> In b (d_plan c) -> d_wants c a = d_wants c b -> a = b) -> existsb is_ends es = false ->
  let s := drun taken c es in d_end s = None /\ forall o, In o (d_plan c) -> has_run s o -> forall h, d_answers s h (d_wants c o) = Some o.
Proof.
  intros taken c es U Df Ne s. assert (E : d_end s = None).
  { subst s. induction es as [|e es IH] using rev_ind; [reflexivity|]. rewrite existsb_app in Ne. apply orb_false_iff in Ne as [Ne1 Ne2]. specialize (IH Ne1). destruct (d_inv_run taken c es) as (P & N & W & A & B). unfold drun in *. rewrite fold_left_app. cbn [fold_left].
    set (t := fold_left (dstep taken c) es (booted c)) in *. clearbody t. unfold dstep. rewrite IH. destruct e as [|o pick|o]; [destruct (d_next t); [exact IH|reflexivity]| |discriminate Ne2].
    destruct (existsb (owner_eqb o) (d_ready t)) eqn:R; [|exact IH]. apply ready_iff in R. cbv zeta. destruct (d_wants c o =? 0); [destruct (d_free taken t pick); [reflexivity|exact IH]|].
    rewrite (proj2 (free_iff taken t (d_wants c o))); [reflexivity|]. assert (Ip : In o (d_plan c)) by (apply A; rewrite !in_app_iff; auto). split; [apply U; exact Ip|]. intros x I.
    assert (Ix : In x (d_plan c)) by (apply A; rewrite !in_app_iff; right; right; apply in_map_iff; exists (x, d_wants c o); auto). destruct (W x _ I) as [Wx|Wx]; [destruct (U x Ix); lia|]. apply Df in Wx; [|exact Ix|exact Ip]. subst x.
    apply nodup_right in N. apply in_split in R as (l1 & l2 & R). rewrite R in N. rewrite <- app_assoc in N. apply nodup_right in N. cbn in N. inversion N as [|? ? N1 _]; subst. apply N1. apply in_or_app. right. apply in_map_iff. exists (o, d_wants c o). auto. }
  split; [exact E|]. intros o Io [R1 R2] h. destruct (d_inv_run taken c es) as (P & N & W & A & B). fold s in P, N, W, A, B. pose proof (B E o Io) as X. rewrite !in_app_iff in X. destruct X as [X|[X|X]]; try contradiction.
  apply in_map_iff in X as ([x q] & Ex & X). cbn in Ex. subst x. assert (q = d_wants c o) as -> by (destruct (W o q X) as [Wx|Wx]; [destruct (U o Io); lia|congruence]). unfold d_answers. rewrite E. rewrite (find_port _ o _ P X). reflexivity.
Qed.
(** With ports that are free and all different, and as long as no listener fails by itself, the process goes on and
    everyone who has been at its port serves there; with the interface and without it alike. *)
Theorem C129_partial : forall taken c es, (forall o, asked_for c o -> usable taken (port_of c o)) ->
  (forall a b, asked_for c a -> asked_for c b -> port_of c a = port_of c b -> a = b) -> existsb is_ends es = false ->
  let s := drun taken c es in d_end s = None /\ forall o, asked_for c o -> has_run s o -> forall h, d_answers s h (port_of c o) = Some o.
Proof. intros taken c es U Df Ne. destruct (serve_all taken c es) as [A B]; [intros o I; apply U; apply plan_iff; exact I|intros a b Ia Ib; apply Df; apply plan_iff; assumption|exact Ne|]. split; [exact A|]. intros o I. apply B. apply plan_iff. exact I. Qed.
(** The shipped ports (10088 and those of the services), and the interface on a service's port. *)
Definition demo_ports (dbg : Z) : ports := Ports true dbg (fun k => match k with O => 10086 | S O => 10000 | _ => 10010 end).
Definition demo_boot : list dev := [DMain; DMain; DListen (Service 0) 0; DMain; DListen Debug 0; DMain; DListen (Service 2) 0; DListen (Service 1) 0].
Example C129_case : let s := drun (fun p => p =? 22) (demo_ports 10088) demo_boot in d_end s = None /\ d_answers s false 10088 = Some Debug /\ d_answers s false 10000 = Some (Service 1) /\ d_answers s false 22 = None.
Proof. vm_compute. auto. Qed.
Example C129_case_same : let s := drun (fun p => p =? 22) (demo_ports 10086) demo_boot in d_end s = Some Debug /\ d_answers s true 10086 = None.
Proof. vm_compute. auto. Qed.
Example C129_case_ends : let s := drun (fun p => p =? 22) (demo_ports 22) [DMain; DMain; DListen (Service 0) 0] in
  d_end s = None /\ In Debug (d_ready s) /\ ~ usable (fun p => p =? 22) 22 /\ d_answers s true 10086 = Some (Service 0).
Proof. split; [reflexivity|]. split; [left; reflexivity|]. split; [intros [_ X]; discriminate X|reflexivity]. Qed.
Example C129_case_both : let s := drun (fun _ => false) (demo_ports 10086) demo_boot in has_run s Debug /\ has_run s (Service 0).
Proof. vm_compute. intuition discriminate. Qed.
Example C129_case_good : (forall o, asked_for (demo_ports 10088) o -> usable (fun p => p =? 22) (port_of (demo_ports 10088) o)) /\
  (forall a b, asked_for (demo_ports 10088) a -> asked_for (demo_ports 10088) b -> port_of (demo_ports 10088) a = port_of (demo_ports 10088) b -> a = b) /\ existsb is_ends demo_boot = false.
Proof.
  split; [|split; [|reflexivity]].
  - intros [|[|[|[|k]]]] H; cbn in H; try lia; (split; [cbn; lia|reflexivity]).
  - intros [|[|[|[|a]]]] [|[|[|[|b]]]] Ha Hb E; cbn in Ha, Hb, E; try reflexivity; try discriminate E; lia.
Qed.
Print Assumptions C129_refuted_anywhere. Print Assumptions C129_refuted_reached. Print Assumptions C129_refuted_ends. Print Assumptions C129_refuted_same.
Print Assumptions C129_off. Print Assumptions C129_partial.
