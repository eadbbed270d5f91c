(** * C63: maintenance of the session list.  C64: routing numbers to carriers. *)
From Coq Require Import Sorting.Permutation.
From Verif Require Import Base UtilsModel OptionsModel FrameModel ClientModel FactoryModel.

(** ** C64: the shipped expressions *)
(** The number segments: 3 digits, or 4 where a 3-digit segment is shared. *)
Definition owned (p : proto) : list (list Z) :=
  match p with
  | P_CMPP => [[1;3;5];[1;3;6];[1;3;7];[1;3;8];[1;3;9];[1;4;7];[1;5;0];[1;5;1];[1;5;2];[1;5;7];[1;5;8];[1;5;9];[1;6;5];[1;7;2];[1;7;8];
               [1;8;2];[1;8;3];[1;8;4];[1;8;7];[1;8;8];[1;9;5];[1;9;7];[1;9;8];
               [1;3;4;0];[1;3;4;1];[1;3;4;2];[1;3;4;3];[1;3;4;4];[1;3;4;5];[1;3;4;6];[1;3;4;7];[1;3;4;8];[1;7;0;5]]
  | P_SGIP => [[1;3;0];[1;3;1];[1;3;2];[1;4;5];[1;4;6];[1;5;5];[1;5;6];[1;6;6];[1;6;7];[1;7;1];[1;7;5];[1;7;6];[1;8;5];[1;8;6];[1;9;6];[1;7;0;9]]
  | P_SMGP => [[1;3;3];[1;4;9];[1;5;3];[1;6;2];[1;7;3];[1;7;4];[1;7;7];[1;8;0];[1;8;1];[1;8;9];[1;9;1];[1;9;3];[1;9;9];[1;3;4;9];[1;7;0;0]]
  end.
(** An 11-digit number (as text) in a segment of the carrier. *)
Definition number_of (p : proto) (s : bytes) : Prop :=
  length s = 11%nat /\ Forall (fun c => 48 <= c <= 57) s /\ exists seg, In seg (owned p) /\ firstn (length seg) s = map (fun d => 48 + d) seg.
Definition shipped_match (p : proto) (s : bytes) : bool := match Compile (segment_of p) with Some r => MatchWhole r s | None => false end.

Fixpoint wid (r : re) : option nat :=
  match r with
  | RCls _ => Some 1%nat
  | REps => Some 0%nat
  | RSeq a b => match wid a, wid b with Some x, Some y => Some (x + y)%nat | _, _ => None end
  | RAlt a b => match wid a, wid b with Some x, Some y => if Nat.eqb x y then Some x else None | _, _ => None end
  end.
Fixpoint digs (r : re) : bool :=
  match r with RCls l => forallb (fun '(a, b) => (48 <=? a) && (b <=? 57)) l | REps => true | RSeq a b | RAlt a b => digs a && digs b end.
Lemma rests_split r : forall n, wid r = Some n -> digs r = true -> forall s x, In x (rests r s) -> exists pre, s = pre ++ x /\ length pre = n /\ Forall (fun c => 48 <= c <= 57) pre.
Proof.
  induction r as [l| |a IHa b IHb|a IHa b IHb]; intros n W D s x H; cbn [wid digs rests] in *.
  - injection W as <-. destruct s as [|c t]; [destruct H|]. destruct (in_class l c) eqn:E; [|destruct H]. destruct H as [<-|[]]. exists [c]. split; [reflexivity|]. split; [reflexivity|]. constructor; [|constructor].
    unfold in_class in E. apply existsb_exists in E as ([u v] & I & E). rewrite forallb_forall in D. specialize (D _ I). cbn in D. lia.
  - injection W as <-. destruct H as [<-|[]]. exists []. auto.
  - destruct (wid a) as [na|]; [|discriminate W]. destruct (wid b) as [nb|]; [|discriminate W]. injection W as <-. apply andb_true_iff in D as [Da Db]. apply in_flat_map in H as (y & Hy & Hx).
    destruct (IHa na eq_refl Da s y Hy) as (p1 & -> & L1 & F1). destruct (IHb nb eq_refl Db y x Hx) as (p2 & -> & L2 & F2). exists (p1 ++ p2). rewrite app_assoc, app_length. split; [reflexivity|]. split; [lia|]. apply Forall_app. auto.
  - destruct (wid a) as [na|]; [|discriminate W]. destruct (wid b) as [nb|]; [|discriminate W]. destruct (Nat.eqb_spec na nb) as [->|]; [|discriminate W]. injection W as <-. apply andb_true_iff in D as [Da Db]. apply in_app_iff in H as [H|H]; eauto.
Qed.
Lemma rests_app r : forall n, wid r = Some n -> forall s t, (n <= length s)%nat -> rests r (s ++ t) = map (fun x => x ++ t) (rests r s) /\ forall x, In x (rests r s) -> length x = (length s - n)%nat.
Proof.
  induction r as [l| |a IHa b IHb|a IHa b IHb]; intros n W s t L; cbn [wid rests] in *.
  - injection W as <-. destruct s as [|c s]; [cbn in L; lia|]. cbn [app]. destruct (in_class l c); cbn; (split; [reflexivity|]); intros x; [intros [<-|[]]; lia|intros []].
  - injection W as <-. split; [reflexivity|]. intros x [<-|[]]. lia.
  - destruct (wid a) as [na|]; [|discriminate W]. destruct (wid b) as [nb|]; [|discriminate W]. injection W as <-. destruct (IHa na eq_refl s t ltac:(lia)) as [EA LA]. rewrite EA. split.
    + clear EA IHa. induction (rests a s) as [|y l IH]; [reflexivity|]. cbn [map flat_map]. rewrite map_app, IH by (intros x H; apply LA; right; exact H). f_equal.
      specialize (LA y (or_introl eq_refl)). destruct (IHb nb eq_refl y t ltac:(lia)) as [EB _]. exact EB.
    + intros x H. apply in_flat_map in H as (y & Hy & Hx). specialize (LA y Hy). destruct (IHb nb eq_refl y t ltac:(lia)) as [_ LB]. specialize (LB x Hx). lia.
  - destruct (wid a) as [na|]; [|discriminate W]. destruct (wid b) as [nb|]; [|discriminate W]. destruct (Nat.eqb_spec na nb) as [->|]; [|discriminate W]. injection W as <-.
    destruct (IHa nb eq_refl s t L) as [EA LA]. destruct (IHb nb eq_refl s t L) as [EB LB]. rewrite EA, EB, map_app. split; [reflexivity|]. intros x H. apply in_app_iff in H as [H|H]; auto.
Qed.
Lemma beqb_eq a b : beqb a b = true <-> a = b.
Proof. unfold beqb. destruct (list_eq_dec Z.eq_dec a b); split; congruence. Qed.
(** A fixed-width expression of digits in two parts. *)
Lemma whole_split a b na nb s : wid a = Some na -> wid b = Some nb -> digs a = true -> digs b = true ->
  (MatchWhole (RSeq a b) s = true <-> exists u v, s = u ++ v /\ length u = na /\ length v = nb /\ MatchWhole a u = true /\ MatchWhole b v = true).
Proof.
  intros Wa Wb Da Db. unfold MatchWhole. rewrite existsb_exists. split.
  - intros (x & H & X). destruct x; [|discriminate X]. cbn [rests] in H. apply in_flat_map in H as (y & Hy & Hx).
    destruct (rests_split a na Wa Da s y Hy) as (u & -> & Lu & _). destruct (rests_split b nb Wb Db y [] Hx) as (v & Ev & Lv & _). rewrite app_nil_r in Ev. subst v. exists u, y. split; [reflexivity|]. split; [exact Lu|]. split; [exact Lv|].
    destruct (rests_app a na Wa u y ltac:(lia)) as [E LE]. rewrite E in Hy. apply in_map_iff in Hy as (z & Ez & Hz). split; apply existsb_exists; exists []; (split; [|reflexivity]); [|exact Hx].
    specialize (LE z Hz). destruct z; [exact Hz|cbn in LE; lia].
  - intros (u & v & -> & Lu & Lv & Mu & Mv). exists []. split; [|reflexivity]. cbn [rests]. apply in_flat_map. apply existsb_exists in Mu as (x & Hx & X). destruct x; [|discriminate X]. apply existsb_exists in Mv as (y & Hy & Y). destruct y; [|discriminate Y].
    exists v. split; [|exact Hy]. destruct (rests_app a na Wa u v ltac:(lia)) as [E _]. rewrite E. change v with ([] ++ v) at 1. apply (in_map (fun x => x ++ v)). exact Hx.
Qed.
Definition digits : list Z := [48;49;50;51;52;53;54;55;56;57].
Lemma digits_all c : In c digits <-> 48 <= c <= 57.
Proof. unfold digits. cbn. lia. Qed.
Definition head_re (r : re) : re := match r with RSeq a _ => a | x => x end.
Definition tail_re (r : re) : re := match r with RSeq _ b => b | x => x end.
Definition starts (u : bytes) (seg : list Z) : bool := beqb (firstn (length seg) u) (map (fun d => 48 + d) seg).
Lemma sweep : forallb (fun p => match Compile (segment_of p) with
  | Some (RSeq a b) => (match wid a with Some 4%nat => true | _ => false end) && (match wid b with Some 7%nat => true | _ => false end) && digs a && digs b &&
      forallb (fun c0 => forallb (fun c1 => forallb (fun c2 => forallb (fun c3 => Bool.eqb (MatchWhole a [c0;c1;c2;c3]) (existsb (starts [c0;c1;c2;c3]) (owned p))) digits) digits) digits) digits
  | _ => false end) [P_CMPP; P_SGIP; P_SMGP] = true.
Proof. vm_compute. reflexivity. Qed.
Lemma short_segs : forallb (fun p => forallb (fun seg => Nat.leb (length seg) 4) (owned p)) [P_CMPP; P_SGIP; P_SMGP] = true.
Proof. reflexivity. Qed.
Lemma parts p : exists a, Compile (segment_of p) = Some (RSeq a (times 7 (RCls [(48, 57)]))) /\ wid a = Some 4%nat /\ digs a = true.
Proof.
  assert (X : match Compile (segment_of p) with Some (RSeq a b) => b = times 7 (RCls [(48, 57)]) /\ wid a = Some 4%nat /\ digs a = true | _ => False end) by (destruct p; vm_compute; auto).
  destruct (Compile (segment_of p)) as [[| |a b|]|]; try contradiction. destruct X as (-> & W & D). exists a. auto.
Qed.
Lemma any_digits n : forall v, MatchWhole (times n (RCls [(48, 57)])) v = true <-> length v = n /\ Forall (fun c => 48 <= c <= 57) v.
Proof.
  induction n as [|n IH]; intros v; unfold MatchWhole in *; cbn [times rests].
  - cbn. destruct v; [split; auto|split; [discriminate|intros [X _]; discriminate X]].
  - destruct v as [|c v]; cbn [flat_map existsb]; [split; [discriminate|intros [X _]; discriminate X]|]. unfold in_class. cbn [existsb]. rewrite orb_false_r. destruct ((48 <=? c) && (c <=? 57)) eqn:E.
    + cbn [flat_map]. rewrite app_nil_r, IH. cbn [length]. split; [intros [L F]; split; [lia|constructor; [lia|exact F]]|intros [L F]; inversion F; subst; split; [lia|assumption]].
    + cbn. split; [discriminate|]. intros [_ F]. inversion F; subst. lia.
Qed.
Lemma head_table p a u : Compile (segment_of p) = Some (RSeq a (times 7 (RCls [(48, 57)]))) -> length u = 4%nat -> Forall (fun c => 48 <= c <= 57) u ->
  MatchWhole a u = existsb (starts u) (owned p).
Proof.
  intros C L F. pose proof sweep as S. rewrite forallb_forall in S. specialize (S p ltac:(destruct p; cbn; auto)). rewrite C in S. apply andb_true_iff in S as [_ S].
  destruct u as [|c0 [|c1 [|c2 [|c3 [|]]]]]; try discriminate L. repeat match goal with H : Forall _ (_ :: _) |- _ => inversion H; clear H; subst end.
  rewrite forallb_forall in S. specialize (S c0 ltac:(apply digits_all; assumption)). rewrite forallb_forall in S. specialize (S c1 ltac:(apply digits_all; assumption)).
  rewrite forallb_forall in S. specialize (S c2 ltac:(apply digits_all; assumption)). rewrite forallb_forall in S. specialize (S c3 ltac:(apply digits_all; assumption)). apply Bool.eqb_prop in S. exact S.
Qed.
Lemma starts_app p u v seg : In seg (owned p) -> length u = 4%nat -> (starts u seg = true <-> firstn (length seg) (u ++ v) = map (fun d => 48 + d) seg).
Proof.
  intros I L. pose proof short_segs as S. rewrite forallb_forall in S. specialize (S p ltac:(destruct p; cbn; auto)). rewrite forallb_forall in S. specialize (S seg I). apply Nat.leb_le in S.
  rewrite firstn_app. replace (length seg - length u)%nat with 0%nat by lia. rewrite firstn_O, app_nil_r. unfold starts. apply beqb_eq.
Qed.
(** The shipped expressions, for every text: a match is exactly an 11-digit number of a segment of the carrier. *)
Theorem C64_shipped_exact : forall p s, shipped_match p s = true <-> number_of p s.
Proof.
  intros p s. destruct (parts p) as (a & C & W & D). unfold shipped_match. rewrite C. rewrite (whole_split a (times 7 (RCls [(48, 57)])) 4 7 s W eq_refl D eq_refl). unfold number_of. split.
  - intros (u & v & -> & Lu & Lv & Mu & Mv). apply any_digits in Mv as [_ Fv].
    assert (Fu : Forall (fun c => 48 <= c <= 57) u). { unfold MatchWhole in Mu. apply existsb_exists in Mu as (x & Hx & _). destruct (rests_split a 4 W D u x Hx) as (pre & E & L & F). assert (x = []) by (destruct x; [reflexivity|rewrite E, app_length in Lu; cbn in Lu; lia]). subst x. rewrite app_nil_r in E. subst pre. exact F. }
    rewrite app_length. split; [lia|]. split; [apply Forall_app; auto|]. rewrite (head_table p a u C Lu Fu) in Mu. apply existsb_exists in Mu as (seg & I & S). exists seg. split; [exact I|]. apply (starts_app p u v seg I Lu). exact S.
  - intros (L & F & seg & I & E). exists (firstn 4 s), (skipn 4 s). assert (Lu : length (firstn 4 s) = 4%nat) by (rewrite firstn_length; lia). assert (E2 : s = firstn 4 s ++ skipn 4 s) by (symmetry; apply firstn_skipn).
    rewrite E2 in F. apply Forall_app in F as [Fu Fv]. split; [exact E2|]. split; [exact Lu|]. split; [rewrite skipn_length; lia|]. split.
    + rewrite (head_table p a _ C Lu Fu). apply existsb_exists. exists seg. split; [exact I|]. apply (starts_app p _ (skipn 4 s) seg I Lu). rewrite <- E2. exact E.
    + apply any_digits. rewrite skipn_length. split; [lia|exact Fv].
Qed.
Lemma disjoint : forallb (fun p => forallb (fun q => match p, q with P_CMPP, P_CMPP | P_SGIP, P_SGIP | P_SMGP, P_SMGP => true | _, _ =>
    forallb (fun a => forallb (fun b => negb (beqb (firstn (Nat.min (length a) (length b)) a) (firstn (Nat.min (length a) (length b)) b))) (owned q)) (owned p) end) [P_CMPP; P_SGIP; P_SMGP]) [P_CMPP; P_SGIP; P_SMGP] = true.
Proof. vm_compute. reflexivity. Qed.
(** Every text matches the shipped expression of at most one carrier. *)
Theorem C64_shipped_one : forall p q s, shipped_match p s = true -> shipped_match q s = true -> p = q.
Proof.
  intros p q s Hp Hq. apply C64_shipped_exact in Hp as (_ & _ & a & Ia & Ea). apply C64_shipped_exact in Hq as (_ & _ & b & Ib & Eb).
  pose proof disjoint as X. rewrite forallb_forall in X. specialize (X p ltac:(destruct p; cbn; auto)). rewrite forallb_forall in X. specialize (X q ltac:(destruct q; cbn; auto)).
  assert (E : firstn (Nat.min (length a) (length b)) a = firstn (Nat.min (length a) (length b)) b).
  { apply (f_equal (firstn (Nat.min (length a) (length b)))) in Ea. apply (f_equal (firstn (Nat.min (length a) (length b)))) in Eb. rewrite firstn_firstn in Ea, Eb.
    replace (Nat.min (Nat.min (length a) (length b)) (length a)) with (Nat.min (length a) (length b)) in Ea by lia. replace (Nat.min (Nat.min (length a) (length b)) (length b)) with (Nat.min (length a) (length b)) in Eb by lia.
    rewrite Ea in Eb. rewrite !firstn_map in Eb. clear -Eb. revert Eb. generalize (firstn (Nat.min (length a) (length b)) a) (firstn (Nat.min (length a) (length b)) b). induction l as [|x l IH]; intros [|y m] H; try discriminate H; [reflexivity|]. cbn [map] in H. pose proof (f_equal (hd 0) H) as H1. pose proof (f_equal (@tl Z) H) as H2. cbn [hd tl] in H1, H2. f_equal; [lia|apply IH; exact H2]. }
  assert (NO : (forallb (fun a => forallb (fun b => negb (beqb (firstn (Nat.min (length a) (length b)) a) (firstn (Nat.min (length a) (length b)) b))) (owned q)) (owned p)) = true -> False).
  { intros Y. rewrite forallb_forall in Y. specialize (Y a Ia). rewrite forallb_forall in Y. specialize (Y b Ib). rewrite E in Y. apply negb_true_iff in Y. rewrite (proj2 (beqb_eq _ _) eq_refl) in Y. discriminate Y. }
  destruct p, q; try reflexivity; exfalso; exact (NO X).
Qed.

(** ** C64: choosing the carrier *)
(** The carrier at place [i] as the choice sees it: the factory that is there, or the one that is made. *)
Definition carrier (mk : nat -> option factory) (fs : list (option factory)) (k i : nat) : option factory :=
  match nth_error fs i with Some (Some f) => Some f | Some None => mk (k + i)%nat | None => None end.
Definition takes (f : option factory) (phone : bytes) : Prop := exists m, f = Some (Some m) /\ m phone = true.
Definition passes (f : option factory) (phone : bytes) : Prop := f = None \/ exists m, f = Some (Some m) /\ m phone = false.
Lemma carrier_next mk f r k i : carrier mk (f :: r) k (S i) = carrier mk r (S k) i.
Proof. unfold carrier. cbn [nth_error]. destruct (nth_error r i) as [[|]|]; auto. f_equal. lia. Qed.
(** Exactly the first carrier that has an account and whose expression matches; none if there is
    none.  The factories that were there stay, in place. *)
Theorem C64_first_partial : forall mk phone fs k o fs', select mk phone k fs = Ok (o, fs') ->
  match o with
  | Some i => exists j, i = (k + j)%nat /\ (j < length fs)%nat /\ takes (carrier mk fs k j) phone /\ forall j', (j' < j)%nat -> passes (carrier mk fs k j') phone
  | None => forall j, (j < length fs)%nat -> passes (carrier mk fs k j) phone
  end
  /\ length fs' = length fs /\ forall j f, nth_error fs j = Some (Some f) -> nth_error fs' j = Some (Some f).
Proof.
  intros mk phone fs. induction fs as [|f r IH]; intros k o fs' H; cbn [select] in H.
  - injection H as <- <-. split; [intros j L; cbn in L; lia|]. split; [reflexivity|]. intros j f N. exact N.
  - assert (C0 : carrier mk (f :: r) k 0 = match f with Some x => Some x | None => mk k end) by (unfold carrier; cbn [nth_error]; rewrite Nat.add_0_r; reflexivity).
    destruct (match f with Some x => Some x | None => mk k end) as [[m|]|] eqn:F; [|discriminate H|].
    + destruct (m phone) eqn:M.
      * injection H as <- <-. split; [|split; [reflexivity|intros [|j] g N; [cbn [nth_error] in *; injection N as ->; f_equal; symmetry; exact F|exact N]]].
        exists 0%nat. split; [lia|]. split; [cbn; lia|]. split; [exists m; split; [rewrite C0; reflexivity|exact M]|]. intros j' L. lia.
      * apply bind_ok in H as ([o1 r1] & SE & H). injection H as <- <-. destruct (IH (S k) o1 r1 SE) as (A & B & C). split; [|split].
        -- destruct o1 as [i|].
           ++ destruct A as (j & -> & L & T & P). exists (S j). split; [lia|]. split; [cbn; lia|]. rewrite carrier_next. split; [exact T|]. intros [|j'] L'; [right; exists m; split; [rewrite C0; reflexivity|exact M]|]. rewrite carrier_next. apply P. lia.
           ++ intros [|j] L; [right; exists m; split; [rewrite C0; reflexivity|exact M]|]. rewrite carrier_next. apply A. cbn in L. lia.
        -- cbn. lia.
        -- intros [|j] g N; [cbn [nth_error] in *; injection N as ->; f_equal; symmetry; exact F|]. cbn [nth_error] in *. auto.
    + apply bind_ok in H as ([o1 r1] & SE & H). injection H as <- <-. destruct (IH (S k) o1 r1 SE) as (A & B & C). split; [|split].
      * destruct o1 as [i|].
        -- destruct A as (j & -> & L & T & P). exists (S j). split; [lia|]. split; [cbn; lia|]. rewrite carrier_next. split; [exact T|]. intros [|j'] L'; [left; rewrite C0; reflexivity|]. rewrite carrier_next. apply P. lia.
        -- intros [|j] L; [left; rewrite C0; reflexivity|]. rewrite carrier_next. apply A. cbn in L. lia.
      * cbn. lia.
      * intros [|j] g N; [cbn [nth_error] in *; injection N as ->; discriminate F|]. cbn [nth_error] in *. auto.
Qed.
(** It answers whenever every expression compiles. *)
Theorem C64_answers_partial : forall mk phone fs k, (forall j, carrier mk fs k j <> Some None) -> exists o fs', select mk phone k fs = Ok (o, fs').
Proof.
  intros mk phone fs. induction fs as [|f r IH]; intros k G; cbn [select]; [eauto|].
  assert (C0 : carrier mk (f :: r) k 0 = match f with Some x => Some x | None => mk k end) by (unfold carrier; cbn [nth_error]; rewrite Nat.add_0_r; reflexivity).
  destruct (IH (S k)) as (o & r1 & E); [intros j; rewrite <- (carrier_next mk f r k j); apply G|]. pose proof (G 0%nat) as G0. rewrite C0 in G0.
  destruct (match f with Some x => Some x | None => mk k end) as [[m|]|]; [|contradiction|].
  - destruct (m phone); [eauto|]. rewrite E. cbn [bind]. eauto.
  - rewrite E. cbn [bind]. eauto.
Qed.
(** A configured expression that does not compile crashes the client at the first number that gets
    as far as that carrier. *)
Theorem C64_refuted_expression : forall mk phone fs k j, (j < length fs)%nat -> carrier mk fs k j = Some None -> (forall j', (j' < j)%nat -> passes (carrier mk fs k j') phone) ->
  select mk phone k fs = Panic.
Proof.
  intros mk phone fs. induction fs as [|f r IH]; intros k j L C P; [cbn in L; lia|]. cbn [select].
  assert (C0 : carrier mk (f :: r) k 0 = match f with Some x => Some x | None => mk k end) by (unfold carrier; cbn [nth_error]; rewrite Nat.add_0_r; reflexivity).
  destruct j as [|j]; [rewrite C0 in C; rewrite C; reflexivity|]. rewrite carrier_next in C.
  assert (E : select mk phone (S k) r = Panic) by (apply (IH (S k) j); [cbn in L; lia|exact C|intros j' L'; rewrite <- (carrier_next mk f r k j'); apply P; lia]).
  destruct (P 0%nat ltac:(lia)) as [X|(m & X & Y)]; rewrite C0 in X; rewrite X; [rewrite E; reflexivity|]. rewrite Y, E. reflexivity.
Qed.
(** The session handed out belongs to the head of the carrier's list and was healthy when looked at;
    a refused token gives none. *)
Theorem C64_peek : forall allow views, match PeekSession allow views with
  | PeekNil => allow = false
  | PeekWait => allow = true
  | PeekGot i => allow = true /\ exists a w h b, views = a ++ (w, h) :: b /\ HealthCheck (w i) = true /\ (exists w' a' b', a ++ [(w, h)] = a' ++ (w', Some i) :: b')
  end.
Proof.
  intros allow views. unfold PeekSession. destruct allow; [|reflexivity].
  assert (G : forall views ret, match peek_loop ret views with PeekNil => False | PeekWait => True | PeekGot i => exists a w h b, views = a ++ (w, h) :: b /\ HealthCheck (w i) = true /\ (ret = Some i \/ exists w' a' b', a ++ [(w, h)] = a' ++ (w', Some i) :: b') end).
  { clear. induction views as [|[w h] r IH]; intros ret; cbn [peek_loop]; [exact I|].
    destruct (match h with Some x => Some x | None => ret end) as [i|] eqn:E.
    - destruct (HealthCheck (w i)) eqn:HC.
      + exists [], w, h, r. split; [reflexivity|]. split; [exact HC|]. destruct h as [x|]; [injection E as ->; right; exists w, [], []; reflexivity|left; exact E].
      + specialize (IH (Some i)). destruct (peek_loop (Some i) r) as [| |j]; auto. destruct IH as (a & w1 & h1 & b & -> & HC1 & [X|(w' & a' & b' & X)]).
        * injection X as ->. exists ((w, h) :: a), w1, h1, b. split; [reflexivity|]. split; [exact HC1|]. destruct h as [x|]; [injection E as ->; right; exists w, [], (a ++ [(w1, h1)]); reflexivity|left; exact E].
        * exists ((w, h) :: a), w1, h1, b. split; [reflexivity|]. split; [exact HC1|]. right. exists w', ((w, h) :: a'), b'. cbn [app]. rewrite X. reflexivity.
    - specialize (IH None). destruct (peek_loop None r) as [| |j]; auto. destruct IH as (a & w1 & h1 & b & -> & HC1 & [X|(w' & a' & b' & X)]); [discriminate X|].
      exists ((w, h) :: a), w1, h1, b. split; [reflexivity|]. split; [exact HC1|]. right. exists w', ((w, h) :: a'), b'. cbn [app]. rewrite X. reflexivity. }
  specialize (G views None). destruct (peek_loop None views) as [| |i]; [contradiction|reflexivity|]. split; [reflexivity|]. destruct G as (a & w & h & b & E & HC & [X|X]); [discriminate X|]. exists a, w, h, b. auto.
Qed.
(** The shipped expressions: CMPP has no account, so the place stays empty; 133... goes to SMGP, a
    CMPP number nowhere. *)
Definition shipped_mk (i : nat) : option factory := match i with 1%nat => Some (Some (shipped_match P_SGIP)) | 2%nat => Some (Some (shipped_match P_SMGP)) | _ => None end.
Definition number (l : list Z) : bytes := map (fun d => 48 + d) l.
Example C64_case :
  (match select shipped_mk (number [1;3;3;1;2;3;4;5;6;7;8]) 0 [None; None; None] with Ok (o, _) => o | _ => None end) = Some 2%nat
  /\ (match select shipped_mk (number [1;3;5;1;2;3;4;5;6;7;8]) 0 [None; None; None] with Ok (o, _) => o | _ => Some 9%nat end) = None
  /\ shipped_match P_CMPP (number [1;3;4;8;2;3;4;5;6;7;8]) = true /\ shipped_match P_SMGP (number [1;3;4;9;2;3;4;5;6;7;8]) = true
  /\ shipped_match P_CMPP (number [1;3;5;1;2;3;4;5;6;7;8;9]) = false.
Proof. vm_compute. auto. Qed.
Print Assumptions C64_shipped_exact.
Print Assumptions C64_shipped_one.
Print Assumptions C64_first_partial.
Print Assumptions C64_answers_partial.
Print Assumptions C64_refuted_expression.
Print Assumptions C64_peek.

(** ** C63 *)
(** What sort.Sort guarantees: a permutation in which no session is less than an earlier one. *)
Definition sort_result (l sorted : list numbered) : Prop :=
  Permutation l sorted /\ forall i j a b, (i < j)%nat -> nth_error sorted i = Some a -> nth_error sorted j = Some b -> Less (snd b) (snd a) = false.
Definition usage (x : numbered) : Z := cs_pcnt (snd x).
Definition well (x : numbered) : bool := HealthCheck (snd x).
Definition limit (conf : Z) : Z := if conf <=? 0 then 2 else conf.
Definition made_by (tries : list try) : list numbered := flat_map (fun t => match t with TMade s => [s] | _ => [] end) tries.
Inductive rising : list Z -> Prop :=
| R_nil : rising []
| R_cons x l : Forall (fun y => x <= y) l -> rising l -> rising (x :: l).

Lemma keep_spec l : forall k c, keep_healthy l = Ok (k, c) ->
  k = map (fun x => (fst x, ResetCounter (snd x))) (filter well l) /\ map fst c = map fst (filter (fun x => negb (well x)) l) /\ Forall (fun x => cs_stat (snd x) = CClosing) c.
Proof.
  induction l as [|[i s] l IH]; intros k c H; cbn [keep_healthy] in H; [injection H as <- <-; auto|]. cbn [filter]. change (well (i, s)) with (HealthCheck s). destruct (HealthCheck s) eqn:HC; cbn [negb].
  - apply bind_ok in H as ([k1 c1] & E & H). injection H as <- <-. destruct (IH k1 c1 E) as (-> & A & B). cbn [map fst snd]. auto.
  - apply bind_ok in H as (s1 & CL & H). apply bind_ok in H as ([k1 c1] & E & H). injection H as <- <-. destruct (IH k1 c1 E) as (-> & A & B). cbn [map fst]. split; [reflexivity|]. split; [f_equal; exact A|]. constructor; [|exact B].
    cbn [snd]. unfold Close in CL. destruct (cs_stat s) eqn:ST; try (destruct (cs_con s); [|discriminate CL]); injection CL as <-; auto.
Qed.
Lemma fill_spec max tries : forall l, match fill max l tries with
  | FillDone f => exists a b, tries = a ++ b /\ f = l ++ made_by a /\ max <= zlen f /\ (zlen l <= max -> zlen f = max) /\ (max <= zlen l -> f = l)
  | FillStopped f => exists a b, tries = a ++ TCancel :: b /\ f = l ++ made_by a /\ zlen f < max
  | FillGoesOn f => f = l ++ made_by tries /\ zlen f < max
  end.
Proof.
  induction tries as [|t r IH]; intros l; cbn [fill]; destruct (max <=? zlen l) eqn:M.
  - exists [], []. change (made_by []) with (@nil numbered). rewrite (app_nil_r l). split; [reflexivity|]. split; [reflexivity|]. split; [lia|]. split; [lia|reflexivity].
  - change (made_by []) with (@nil numbered). rewrite (app_nil_r l). split; [reflexivity|lia].
  - exists [], (t :: r). change (made_by []) with (@nil numbered). rewrite (app_nil_r l). split; [reflexivity|]. split; [reflexivity|]. split; [lia|]. split; [lia|reflexivity].
  - destruct t as [| |s].
    + exists [], r. change (made_by []) with (@nil numbered). rewrite (app_nil_r l). split; [reflexivity|]. split; [reflexivity|lia].
    + specialize (IH l). destruct (fill max l r).
      * destruct IH as (a & b & -> & E & A). exists (TNone :: a), b. auto.
      * destruct IH as (a & b & -> & E & A). exists (TNone :: a), b. auto.
      * exact IH.
    + specialize (IH (l ++ [s])). assert (Z1 : zlen (l ++ [s]) = zlen l + 1) by (rewrite zlen_app; reflexivity). destruct (fill max (l ++ [s]) r).
      * destruct IH as (a & b & -> & E & A & B & C). exists (TMade s :: a), b. rewrite <- app_assoc in E. split; [reflexivity|]. split; [exact E|]. split; [exact A|]. split; [intros _; apply B; lia|lia].
      * destruct IH as (a & b & -> & E & A). exists (TMade s :: a), b. rewrite <- app_assoc in E. auto.
      * destruct IH as [E A]. rewrite <- app_assoc in E. auto.
Qed.
Lemma rank_healthy a b : HealthCheck a = true -> 0 <= cs_pcnt a < 10000000000 -> HealthCheck b = true -> 0 <= cs_pcnt b < 10000000000 -> Less b a = (cs_pcnt b <? cs_pcnt a).
Proof. intros A PA B PB. unfold Less, LruPriority. rewrite A, B. unfold u64. rewrite !Z.mod_small by lia. lia. Qed.
Lemma perm_filter {A} (f : A -> bool) l l' : Permutation l l' -> Permutation (filter f l) (filter f l').
Proof.
  induction 1 as [|x l l' P IH|x y l|l1 l2 l3 P1 IH1 P2 IH2]; cbn [filter].
  - constructor.
  - destruct (f x); [constructor; exact IH|exact IH].
  - destruct (f x), (f y); try apply Permutation_refl. apply perm_swap.
  - eapply Permutation_trans; eassumption.
Qed.
Lemma sorted_rising sorted : (forall i j a b, (i < j)%nat -> nth_error sorted i = Some a -> nth_error sorted j = Some b -> Less (snd b) (snd a) = false) ->
  Forall (fun x => 0 <= usage x < 10000000000) sorted -> rising (map usage (filter well sorted)).
Proof.
  induction sorted as [|a l IH]; intros S F; cbn [filter map]; [constructor|]. inversion F as [|? ? Fa Fl]; subst.
  assert (R : rising (map usage (filter well l))) by (apply IH; [intros i j x y L X Y; apply (S (Datatypes.S i) (Datatypes.S j)); [lia|exact X|exact Y]|exact Fl]).
  destruct (well a) eqn:W; [|exact R]. cbn [map]. constructor; [|exact R]. apply Forall_forall. intros y Y. apply in_map_iff in Y as (b & <- & Y). apply filter_In in Y as [I WB].
  destruct (In_nth_error _ _ I) as [j J]. specialize (S 0%nat (Datatypes.S j) a b ltac:(lia) eq_refl J). rewrite Forall_forall in Fl. specialize (Fl b I).
  rewrite rank_healthy in S by assumption. unfold usage. lia.
Qed.
(** One maintenance round, for every population with at most the configured number of sessions,
    counters below 10^10, any order the sort leaves, any outcome of the connects: the sessions kept
    are exactly the healthy ones, least used first, counters reset; the others are closed; new
    sessions come behind; when the round ends the list has the configured length, and all of it is
    healthy if the new ones are. *)
Theorem C63_round_partial : forall conf l sorted tries f closed, sort_result l sorted -> Forall (fun x => 0 <= usage x < 10000000000) l -> lruSort conf sorted tries = Ok (f, closed) ->
  exists kept, Permutation kept (filter well l) /\ rising (map usage kept)
    /\ Permutation (map fst closed) (map fst (filter (fun x => negb (well x)) l)) /\ Forall (fun x => cs_stat (snd x) = CClosing) closed
    /\ let kept' := map (fun x => (fst x, CSess (cs_p (snd x)) (cs_stat (snd x)) (cs_con (snd x)) (cs_ac (snd x)) 0 (cs_active (snd x)))) kept in
       match f with
       | FillDone final => exists a b, tries = a ++ b /\ final = kept' ++ made_by a /\ (zlen l <= limit conf -> zlen final = limit conf) /\ (Forall (fun x => well x = true) (made_by a) -> Forall (fun x => well x = true) final)
       | FillStopped final => exists a b, tries = a ++ TCancel :: b /\ final = kept' ++ made_by a /\ zlen final < limit conf
       | FillGoesOn final => final = kept' ++ made_by tries /\ zlen final < limit conf
       end.
Proof.
  intros conf l sorted tries f closed [P S] F H. unfold lruSort in H. apply bind_ok in H as ([k c] & E & H). fold (limit conf) in H. injection H as <- <-. destruct (keep_spec sorted k c E) as (-> & A & B).
  exists (filter well sorted). split; [apply perm_filter; apply Permutation_sym; exact P|]. split; [apply sorted_rising; [exact S|apply (Permutation_Forall P); exact F]|].
  split; [rewrite A; apply Permutation_map; apply perm_filter; apply Permutation_sym; exact P|]. split; [exact B|]. cbn zeta.
  pose proof (fill_spec (limit conf) tries (map (fun x => (fst x, ResetCounter (snd x))) (filter well sorted))) as X. unfold ResetCounter in *.
  destruct (fill (limit conf) _ tries) as [fin|fin|fin]; [|exact X|exact X]. destruct X as (a & b & E1 & E2 & X1 & X2 & X3). exists a, b. split; [exact E1|]. split; [exact E2|]. split.
  - intros L. apply X2. rewrite zlen_map. apply Permutation_length in P. assert (FL : forall m, (length (filter well m) <= length m)%nat) by (induction m as [|x m IH]; cbn [filter length]; [lia|]; destruct (well x); cbn [length]; lia). specialize (FL sorted). unfold zlen, numbered in *. lia.
  - intros M. rewrite E2. apply Forall_app. split; [|exact M]. apply Forall_forall. intros y Y. apply in_map_iff in Y as (x & <- & Y). apply filter_In in Y as [_ Y]. exact Y.
Qed.
(** The round does not crash on sessions that are open or marked closed, as every session is. *)
Theorem C63_no_panic : forall conf sorted tries, Forall (fun x => cs_con (snd x) = true \/ cs_stat (snd x) = CClosing) sorted -> exists r, lruSort conf sorted tries = Ok r.
Proof.
  intros conf sorted tries F. unfold lruSort. assert (X : exists kc, keep_healthy sorted = Ok kc).
  { induction F as [|[i s] l H F [[k c] IH]]; [eexists; reflexivity|]. cbn [keep_healthy snd] in *. rewrite IH. destruct (HealthCheck s); [eexists; reflexivity|].
    unfold Close. destruct H as [->| ->]; [destruct (cs_stat s)|]; cbn [bind]; eexists; reflexivity. }
  destruct X as [[k c] ->]. cbn [bind]. eauto.
Qed.
(** Below 10^10 uses, an unhealthy session ranks below every healthy one, and healthy ones by use. *)
Theorem C63_rank_partial : forall a b, HealthCheck a = true -> 0 <= cs_pcnt a < 10000000000 ->
  (HealthCheck b = false -> Less a b = true /\ Less b a = false)
  /\ (HealthCheck b = true -> 0 <= cs_pcnt b < 10000000000 -> (Less b a = true <-> cs_pcnt b < cs_pcnt a)).
Proof.
  intros a b A PA. split.
  - intros B. unfold Less, LruPriority. rewrite A, B. unfold u64. rewrite !Z.mod_small by lia. lia.
  - intros B PB. rewrite rank_healthy by assumption. lia.
Qed.
(** What breaks the full claim.  From 10^10 uses on (an unsigned difference) the most used session
    comes first; at exactly 10^10 it does not rank above an unhealthy one. *)
Theorem C63_refuted_wrap : forall a b, HealthCheck a = true -> HealthCheck b = true -> 0 <= cs_pcnt a <= 10000000000 -> 10000000000 < cs_pcnt b < 2 ^ 63 -> Less b a = true.
Proof.
  intros a b A B PA PB. change (2 ^ 63) with 9223372036854775808 in PB. unfold Less, LruPriority. rewrite A, B. unfold u64. rewrite (Z.mod_small (10000000000 - cs_pcnt a)) by lia.
  replace ((10000000000 - cs_pcnt b) mod 18446744073709551616) with (10000000000 - cs_pcnt b + 18446744073709551616); [lia|]. symmetry. rewrite <- (Z_mod_plus_full _ 1). apply Z.mod_small. lia.
Qed.
Theorem C63_refuted_equal : forall a b, HealthCheck a = true -> cs_pcnt a = 10000000000 -> HealthCheck b = false -> Less a b = false.
Proof. intros a b A PA B. unfold Less, LruPriority. rewrite A, B, PA. reflexivity. Qed.
(** More healthy sessions than configured (the limit was lowered) are all kept. *)
Theorem C63_refuted_limit : forall conf sorted tries f closed, lruSort conf sorted tries = Ok (f, closed) -> limit conf < zlen (filter well sorted) ->
  exists final, f = FillDone final /\ limit conf < zlen final.
Proof.
  intros conf sorted tries f closed H L. unfold lruSort in H. apply bind_ok in H as ([k c] & E & H). fold (limit conf) in H. injection H as <- <-. destruct (keep_spec sorted k c E) as (-> & _ & _).
  pose proof (zlen_map (fun x => (fst x, ResetCounter (snd x))) (filter well sorted)) as ZL. exists (map (fun x => (fst x, ResetCounter (snd x))) (filter well sorted)).
  unfold numbered in *. split; [|rewrite ZL; exact L]. destruct tries; cbn [fill]; (rewrite (proj2 (Z.leb_le _ _)); [reflexivity|]); unfold numbered; rewrite ZL; apply Z.lt_le_incl; exact L.
Qed.
(** A new session that is not healthy (its login answer came in parts: C65_short) stays in the list. *)
Theorem C63_refuted_unhealthy : forall conf sorted closed k s, keep_healthy sorted = Ok (k, closed) -> zlen k = limit conf - 1 -> well s = false ->
  exists final, lruSort conf sorted [TMade s] = Ok (FillDone final, closed) /\ In s final.
Proof.
  intros conf sorted closed k s E L W. unfold lruSort. rewrite E. cbn [bind fill]. fold (limit conf). replace (limit conf <=? zlen k) with false by lia.
  replace (limit conf <=? zlen (k ++ [s])) with true by (rewrite zlen_app; change (zlen [s]) with 1; lia). eexists. split; [reflexivity|]. apply in_app_iff. right. left. reflexivity.
Qed.
(** As long as connects fail the round does not end, so there is no further maintenance either. *)
Theorem C63_refuted_stuck : forall conf sorted closed k n, keep_healthy sorted = Ok (k, closed) -> zlen k < limit conf -> lruSort conf sorted (repeat TNone n) = Ok (FillGoesOn k, closed).
Proof.
  intros conf sorted closed k n E L. unfold lruSort. rewrite E. cbn [bind]. fold (limit conf). f_equal. f_equal. induction n as [|n IH]; cbn [repeat fill]; replace (limit conf <=? zlen k) with false by lia; auto.
Qed.
(** Four sessions, one unhealthy, limit 4: a new one joins behind. *)
Definition sess (st : cstat) (n : Z) : csess := CSess P_CMPP st true (Some (AuthConf [] [] [] [] 48 0 [] [] 0 0 0 [] [] [] [] [] 0 0 0 0)) n 7.
Example C63_case : let l := [(1%nat, sess CLogin 50); (2%nat, sess CConnect 0); (3%nat, sess CLogin 20); (4%nat, sess CLogin 30)] in
  let sorted := [(3%nat, sess CLogin 20); (4%nat, sess CLogin 30); (1%nat, sess CLogin 50); (2%nat, sess CConnect 0)] in
  Permutation l sorted /\ (match lruSort 4 sorted [TNone; TMade (9%nat, sess CLogin 0); TNone] with Ok (FillDone f, c) => (map fst f, map usage f, map fst c) | _ => ([], [], []) end) = ([3;4;1;9]%nat, [0;0;0;0], [2%nat]).
Proof.
  cbn zeta. split; [|reflexivity]. apply (Permutation_cons_app [(3%nat, sess CLogin 20); (4%nat, sess CLogin 30)]). cbn [app]. apply (Permutation_cons_app [(3%nat, sess CLogin 20); (4%nat, sess CLogin 30)] []). apply Permutation_refl.
Qed.
Print Assumptions C63_round_partial.
Print Assumptions C63_no_panic.
Print Assumptions C63_rank_partial.
Print Assumptions C63_refuted_wrap.
Print Assumptions C63_refuted_equal.
Print Assumptions C63_refuted_limit.
Print Assumptions C63_refuted_unhealthy.
Print Assumptions C63_refuted_stuck.
