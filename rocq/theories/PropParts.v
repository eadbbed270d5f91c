(** * C113: the parts of long messages find together at the recipient *)
From Coq Require Import Sorting.Permutation.
From Verif Require Import Base UtilsModel SpecText UtilsProofs.

(** ** Specification: a phone that puts concatenated messages together (3GPP TS 23.040, 9.2.3.24.1).
    Parts with the same reference and the same total belong together; a part with a number outside
    1..total is ignored; when all numbers are there the bodies are shown in order and forgotten. *)
Definition key := (Z * Z)%type.
Definition same (a b : key) : bool := (fst a =? fst b) && (snd a =? snd b).
Definition piece := (key * Z * bytes)%type.
Definition key_of (q : piece) : key := fst (fst q).
Definition num_of (q : piece) : Z := snd (fst q).
Definition read_part (p : bytes) : option piece :=
  match p with
  | 5 :: 0 :: 3 :: r :: t :: n :: b => if (1 <=? n) && (n <=? t) then Some ((r, t), n, b) else None
  | _ => None
  end.
Fixpoint pick (k : key) (n : Z) (l : list piece) : option bytes :=
  match l with
  | [] => None
  | q :: r => if same (key_of q) k && (num_of q =? n) then Some (snd q) else pick k n r
  end.
Fixpoint gather (k : key) (ns : list Z) (l : list piece) : option bytes :=
  match ns with
  | [] => Some []
  | n :: r => match pick k n l, gather k r l with Some b, Some x => Some (b ++ x) | _, _ => None end
  end.
Definition upto (t : Z) : list Z := map Z.of_nat (seq 1 (Z.to_nat t)).
Definition arrives (l : list piece) (q : piece) : list piece * list (key * bytes) :=
  let l1 := l ++ [q] in
  match gather (key_of q) (upto (snd (key_of q))) l1 with
  | Some b => (filter (fun x => negb (same (key_of x) (key_of q))) l1, [(key_of q, b)])
  | None => (l1, [])
  end.
Fixpoint phone (l : list piece) (ps : list bytes) : list piece * list (key * bytes) :=
  match ps with
  | [] => (l, [])
  | p :: r =>
    match read_part p with
    | None => phone l r
    | Some q => let '(l1, o1) := arrives l q in let '(l2, o2) := phone l1 r in (l2, o1 ++ o2)
    end
  end.
(** The texts shown. *)
Definition shown (ps : list bytes) : list bytes := map snd (snd (phone [] ps)).

(** utils/utils.go:204: byte(time.Now().UnixNano() & 0xff) *)
Definition group (now : Z) : Z := Z.land now 255.
(** A message long enough to be split, sent at [now], and its parts. *)
Definition cut (now size : Z) (text : bytes) (ps : list bytes) : Prop :=
  6 < size /\ size <= zlen text /\ ToTPUDHISlices (group now) text size = Ok ps.

(** ** Proofs *)
Lemma same_eq a b : same a b = true <-> a = b.
Proof. destruct a, b. unfold same. cbn. rewrite andb_true_iff, !Z.eqb_eq. split; [intros [-> ->]; auto|injection 1; auto]. Qed.
Lemma same_refl a : same a a = true. Proof. apply same_eq. reflexivity. Qed.
Lemma same_sym a b : same a b = same b a.
Proof. destruct (same a b) eqn:E, (same b a) eqn:F; auto; [apply same_eq in E|apply same_eq in F]; subst; rewrite same_refl in *; congruence. Qed.
(** The same on parts already read. *)
Fixpoint phone_q (l : list piece) (qs : list piece) : list piece * list (key * bytes) :=
  match qs with [] => (l, []) | q :: r => let '(l1, o1) := arrives l q in let '(l2, o2) := phone_q l1 r in (l2, o1 ++ o2) end.
Fixpoint read_all (ps : list bytes) : list piece :=
  match ps with [] => [] | p :: r => match read_part p with Some q => q :: read_all r | None => read_all r end end.
Lemma phone_read ps : forall l, phone l ps = phone_q l (read_all ps).
Proof. induction ps as [|p ps IH]; intros l; cbn [phone read_all phone_q]; auto. destruct (read_part p) as [q|]; auto. cbn [phone_q]. destruct (arrives l q). rewrite IH. reflexivity. Qed.
Lemma read_all_app a b : read_all (a ++ b) = read_all a ++ read_all b.
Proof. induction a as [|p a IH]; cbn; auto. rewrite IH. destruct (read_part p); auto. Qed.
Lemma read_perm a b : Permutation a b -> Permutation (read_all a) (read_all b).
Proof.
  induction 1; cbn; auto.
  - destruct (read_part x); auto.
  - destruct (read_part x), (read_part y); auto. constructor.
  - etransitivity; eauto.
Qed.
Definition mine (k : key) (l : list piece) : list piece := filter (fun q => same (key_of q) k) l.
Lemma pick_mine k n l : pick k n (mine k l) = pick k n l.
Proof. unfold mine. induction l as [|q l IH]; cbn; auto. destruct (same (key_of q) k) eqn:E; cbn; rewrite ?E, ?IH; auto. Qed.
Lemma gather_mine k ns l : gather k ns (mine k l) = gather k ns l.
Proof. induction ns as [|n ns IH]; cbn; auto. rewrite pick_mine, IH. reflexivity. Qed.
Lemma filter_filter {A} (f g : A -> bool) l : filter f (filter g l) = filter (fun x => g x && f x) l.
Proof. induction l as [|a l IH]; cbn; auto. destruct (g a) eqn:G; cbn; rewrite IH; reflexivity. Qed.
Lemma filter_none {A} (f : A -> bool) l : (forall x, f x = false) -> filter f l = [].
Proof. intros H. induction l as [|a l IH]; cbn; auto. rewrite H. auto. Qed.
Lemma phone_proj k qs : forall l, phone_q (mine k l) (mine k qs) = (mine k (fst (phone_q l qs)), filter (fun o => same (fst o) k) (snd (phone_q l qs))).
Proof.
  induction qs as [|q qs IH]; intros l; [reflexivity|]. cbn [mine filter phone_q]. fold (mine k qs).
  destruct (same (key_of q) k) eqn:E.
  - apply same_eq in E. subst k. cbn [phone_q]. unfold arrives.
    assert (M : mine (key_of q) l ++ [q] = mine (key_of q) (l ++ [q])) by (unfold mine; rewrite filter_app; cbn [filter]; rewrite same_refl; reflexivity).
    rewrite M, gather_mine. destruct (gather (key_of q) _ (l ++ [q])) as [b|].
    + assert (N1 : filter (fun x => negb (same (key_of x) (key_of q))) (mine (key_of q) (l ++ [q])) = []) by (unfold mine; rewrite filter_filter; apply filter_none; intros x; destruct (same _ _); auto).
      assert (N2 : mine (key_of q) (filter (fun x => negb (same (key_of x) (key_of q))) (l ++ [q])) = []) by (unfold mine; rewrite filter_filter; apply filter_none; intros x; destruct (same _ _); auto).
      rewrite N1. specialize (IH (filter (fun x => negb (same (key_of x) (key_of q))) (l ++ [q]))). rewrite N2 in IH. rewrite IH.
      destruct (phone_q _ qs) as [l2 o2]. cbn [fst snd app filter]. rewrite same_refl. reflexivity.
    + specialize (IH (l ++ [q])). rewrite IH. destruct (phone_q _ qs) as [l2 o2]. reflexivity.
  - unfold arrives.
    assert (M : mine k (l ++ [q]) = mine k l) by (unfold mine; rewrite filter_app; cbn [filter]; rewrite E; apply app_nil_r).
    destruct (gather (key_of q) _ (l ++ [q])) as [b|].
    + assert (N : mine k (filter (fun x => negb (same (key_of x) (key_of q))) (l ++ [q])) = mine k l).
      { rewrite <- M. unfold mine. rewrite filter_filter. apply filter_ext. intros x. destruct (same (key_of x) k) eqn:X; [|apply andb_false_r].
        apply same_eq in X. rewrite X, same_sym, E. reflexivity. }
      specialize (IH (filter (fun x => negb (same (key_of x) (key_of q))) (l ++ [q]))). rewrite N in IH. rewrite IH. destruct (phone_q _ qs) as [l2 o2]. cbn [fst snd app filter]. rewrite E. reflexivity.
    + specialize (IH (l ++ [q])). rewrite M in IH. rewrite IH. destruct (phone_q _ qs) as [l2 o2]. reflexivity.
Qed.

(** One message on its own, in any order. *)
Lemma upto_in n t : In n (upto t) <-> 1 <= n <= t.
Proof.
  unfold upto. rewrite in_map_iff. split.
  - intros (x & <- & H). apply in_seq in H. lia.
  - intros H. exists (Z.to_nat n). split; [lia|]. apply in_seq. lia.
Qed.
Lemma upto_nodup t : NoDup (upto t).
Proof. unfold upto. apply FinFun.Injective_map_NoDup; [intros a b; lia|apply seq_NoDup]. Qed.
Lemma upto_len t : 0 <= t -> length (upto t) = Z.to_nat t.
Proof. intros. unfold upto. rewrite map_length, seq_length. reflexivity. Qed.
Lemma pick_none k n l : (forall q, In q l -> num_of q <> n) -> pick k n l = None.
Proof. induction l as [|q l IH]; intros H; cbn; auto. destruct (num_of q =? n) eqn:E; [exfalso; apply (H q); [left; auto|lia]|]. rewrite andb_false_r. apply IH. intros; apply H; right; auto. Qed.
Lemma gather_none k n ns l : In n ns -> (forall q, In q l -> num_of q <> n) -> gather k ns l = None.
Proof.
  induction ns as [|m ns IH]; intros H Q; [destruct H|]. cbn. destruct H as [->|H]; [rewrite pick_none by auto; reflexivity|]. rewrite IH by auto. destruct (pick k m l); auto.
Qed.
Lemma missing k t n qs : 1 <= n <= t -> snd k = t -> forall l, (forall q, In q (l ++ qs) -> key_of q = k /\ num_of q <> n) -> phone_q l qs = (l ++ qs, []).
Proof.
  intros Hn Hk. induction qs as [|q qs IH]; intros l H; cbn [phone_q]; [rewrite app_nil_r; auto|].
  assert (K : key_of q = k) by (apply (H q), in_or_app; right; left; auto). unfold arrives. rewrite K, Hk.
  rewrite (gather_none k n); [|apply upto_in; lia|].
  2:{ intros x Hx. apply (H x), in_or_app. apply in_app_or in Hx as [?|[->|[]]]; [auto|right; left; auto]. }
  rewrite IH; rewrite <- app_assoc; auto.
Qed.
Lemma pick_some k n f l : (exists q, In q l /\ key_of q = k /\ num_of q = n) -> (forall q, In q l -> snd q = f (num_of q)) -> pick k n l = Some (f n).
Proof.
  intros (q & Q & Kq & Nq) F. induction l as [|x l IH]; [destruct Q|]. cbn. destruct (same (key_of x) k && (num_of x =? n)) eqn:E.
  - apply andb_true_iff in E as [_ E]. rewrite (F x (or_introl eq_refl)). f_equal. f_equal. lia.
  - destruct Q as [->|Q]; [rewrite Kq, Nq, same_refl, Z.eqb_refl in E; discriminate|]. apply IH; auto. intros; apply F; right; auto.
Qed.
Lemma gather_some k f ns l : (forall n, In n ns -> exists q, In q l /\ key_of q = k /\ num_of q = n) -> (forall q, In q l -> snd q = f (num_of q)) -> gather k ns l = Some (concat (map f ns)).
Proof.
  intros H F. induction ns as [|n ns IH]; cbn; auto. rewrite (pick_some k n f) by (auto; apply H; left; auto). rewrite IH by (intros; apply H; right; auto). reflexivity.
Qed.
Definition pieces (k : key) (f : Z -> bytes) (t : Z) : list piece := map (fun n => (k, n, f n)) (upto t).
Lemma alone k f t qs : 1 <= t -> snd k = t -> Permutation qs (pieces k f t) -> phone_q [] qs = ([], [(k, concat (map f (upto t)))]).
Proof.
  intros T1 Kt P.
  assert (A : forall q, In q qs -> key_of q = k /\ snd q = f (num_of q) /\ 1 <= num_of q <= t).
  { intros q Q. apply (Permutation_in _ P), in_map_iff in Q as (n & <- & Hn). apply upto_in in Hn. auto. }
  assert (B : forall n, In n (upto t) -> exists q, In q qs /\ key_of q = k /\ num_of q = n).
  { intros n Hn. exists (k, n, f n). split; auto. apply (Permutation_in _ (Permutation_sym P)), in_map_iff. eauto. }
  assert (D : NoDup (map num_of qs)).
  { eapply (Permutation_NoDup (l := upto t)); [|apply upto_nodup]. transitivity (map num_of (pieces k f t)); [|apply Permutation_map, Permutation_sym, P]. unfold pieces. rewrite map_map. cbn. rewrite map_id. auto. }
  destruct qs as [|q0 qs0]; [destruct (B 1 ltac:(apply upto_in; lia)) as (? & [] & _)|].
  destruct (exists_last (l := q0 :: qs0) ltac:(discriminate)) as (l0 & x & E). rewrite E in *. clear E q0 qs0.
  destruct (A x ltac:(apply in_or_app; right; left; auto)) as (Kx & Bx & Nx).
  assert (M : phone_q [] l0 = (l0, [])).
  { rewrite (missing k t (num_of x) l0) with (l := []); auto. cbn [app]. intros q Q. split; [apply (A q), in_or_app; auto|].
    intros Eq. rewrite map_app in D. cbn [map] in D. apply NoDup_remove_2 in D. rewrite app_nil_r in D. apply D. rewrite <- Eq. apply in_map. auto. }
  assert (App : forall a l b, phone_q l (a ++ b) = let '(l1, o1) := phone_q l a in let '(l2, o2) := phone_q l1 b in (l2, o1 ++ o2)).
  { clear. induction a as [|q a IH]; intros l b; cbn [app phone_q]; [destruct (phone_q l b); auto|]. destruct (arrives l q) as [l1 o1]. rewrite IH. destruct (phone_q l1 a) as [l2 o2]. destruct (phone_q l2 b). rewrite app_assoc. auto. }
  rewrite App, M. cbn [phone_q]. unfold arrives. rewrite Kx, Kt. rewrite (gather_some k f) by (auto; intros q Q; apply (A q Q)).
  rewrite app_nil_r, app_nil_l. f_equal. clear - A. induction (l0 ++ [x]) as [|q l IH]; cbn; auto. destruct (A q (or_introl eq_refl)) as (-> & _). rewrite same_refl. cbn. apply IH. intros; apply A; right; auto.
Qed.

(** The parts of a message as the phone reads them. *)
Definition body_at (ps : list bytes) (n : Z) : bytes := skipn 6 (nth (Z.to_nat (n - 1)) ps []).
Lemma seq_nth_all {A B} (g : A -> B) (d : A) (l : list A) : map (fun n => g (nth (Z.to_nat (n - 1)) l d)) (upto (zlen l)) = map g l.
Proof.
  unfold upto, zlen. rewrite Nat2Z.id, map_map.
  transitivity (map (fun i => g (nth i l d)) (seq 0 (length l))).
  - rewrite <- seq_shift, map_map. apply map_ext. intros i. do 2 f_equal. lia.
  - clear. induction l as [|a l IH]; cbn; auto. f_equal. rewrite <- seq_shift, map_map. exact IH.
Qed.
Lemma cut_pieces now size text ps : cut now size text ps -> zlen ps <= 255 -> read_all ps = pieces (group now, zlen ps) (body_at ps) (zlen ps) /\ 2 <= zlen ps.
Proof.
  intros (H1 & H2 & E) L.
  assert (N : 2 <= zlen ps).
  { rewrite (split_zlen _ _ _ _ H1 H2 E). pose proof (nparts_bounds (zlen text) (size - 6) ltac:(lia) ltac:(lia)). nia. }
  split; auto.
  assert (R : map read_part ps = map Some (pieces (group now, zlen ps) (body_at ps) (zlen ps))).
  { unfold pieces. rewrite map_map. apply nth_ext with (d := None) (d' := None).
    - rewrite !map_length, upto_len by lia. unfold zlen. lia.
    - rewrite map_length. intros i Hi. destruct (nth_error ps i) as [p|] eqn:P; [|apply nth_error_None in P; lia].
      destruct (split_parts _ _ _ _ H1 H2 E L i p P) as (b & Ep & _).
      rewrite (nth_indep _ None (read_part [])) by (rewrite map_length; auto). rewrite map_nth, (nth_error_nth _ _ _ P).
      unfold upto. rewrite map_map. rewrite (nth_indep _ None ((fun x => Some (group now, zlen ps, Z.of_nat x, body_at ps (Z.of_nat x))) 0%nat)) by (rewrite map_length, seq_length; unfold zlen; lia).
      rewrite (map_nth (fun x => Some (group now, zlen ps, Z.of_nat x, body_at ps (Z.of_nat x)))). rewrite seq_nth by (unfold zlen; lia).
      unfold body_at. replace (Z.to_nat (Z.of_nat (1 + i) - 1)) with i by lia. rewrite (nth_error_nth _ _ _ P). rewrite Ep. unfold concat_part. cbn [app read_part skipn].
      replace (Z.of_nat i + 1) with (Z.of_nat (1 + i)) by lia.
      assert (Hz : zlen ps = Z.of_nat (length ps)) by reflexivity.
      replace ((1 <=? Z.of_nat (1 + i)) && (Z.of_nat (1 + i) <=? zlen ps)) with true by (symmetry; apply andb_true_iff; split; lia). reflexivity. }
  clear - R. revert R. generalize (pieces (group now, zlen ps) (body_at ps) (zlen ps)) as qs. induction ps as [|p ps IH]; intros [|q qs] R; cbn in R; try discriminate; auto.
  injection R as R1 R2. cbn [read_all]. rewrite R1. f_equal. auto.
Qed.
Lemma body_all ps : concat (map (body_at ps) (upto (zlen ps))) = reassemble ps.
Proof. unfold reassemble. f_equal. exact (seq_nth_all (skipn 6) [] ps). Qed.

(** ** The theorems *)
(** What the phone shows of long messages that differ in their reference or their number of parts, when
    all parts arrive, in any order whatever: each message once, as its parts make it up, and nothing
    else. *)
Definition sent := (Z * Z * bytes)%type.
Definition key_sent (m : sent * list bytes) : key := (group (fst (fst (fst m))), zlen (snd m)).
Theorem C113_partial : forall (ms : list (sent * list bytes)) arrivals,
  (forall m ps, In (m, ps) ms -> cut (fst (fst m)) (snd (fst m)) (snd m) ps /\ zlen ps <= 255) ->
  NoDup (map key_sent ms) ->
  Permutation arrivals (concat (map snd ms)) ->
  fst (phone [] arrivals) = [] /\ Permutation (shown arrivals) (map (fun m => reassemble (snd m)) ms).
Proof.
  intros ms arr C D P. unfold shown. rewrite phone_read. apply read_perm in P. revert P. generalize (read_all arr) as qs. intros qs P.
  set (one := fun m : sent * list bytes => pieces (key_sent m) (body_at (snd m)) (zlen (snd m))).
  assert (R : read_all (concat (map snd ms)) = concat (map one ms)).
  { clear - C. induction ms as [|[m ps] ms IH]; auto. cbn [map concat]. rewrite read_all_app, IH by (intros; apply C; right; auto). f_equal.
    destruct (C m ps (or_introl eq_refl)) as [Hc L]. apply (cut_pieces _ _ _ _ Hc L). }
  rewrite R in P.
  assert (K1 : forall k l f t, mine k (pieces l f t) = if same l k then pieces l f t else []).
  { intros k l f t. unfold mine, pieces. destruct (same l k) eqn:E; induction (upto t) as [|n ns IH]; cbn [map filter]; auto; change (key_of (l, n, f n)) with l; rewrite E; [rewrite IH; auto|exact IH]. }
  assert (K3 : forall m, one m = pieces (key_sent m) (body_at (snd m)) (zlen (snd m))) by reflexivity.
  assert (K0 : forall k m, mine k (one m) = if same (key_sent m) k then one m else []) by (intros; apply K1).
  assert (Ma : forall k a b, mine k (a ++ b) = mine k a ++ mine k b) by (intros; apply filter_app).
  clearbody one.
  assert (K2 : forall m, In m ms -> mine (key_sent m) (concat (map one ms)) = one m).
  { clear - D K0 Ma. induction ms as [|m0 ms IH]; intros m Hm; [destruct Hm|]. cbn [map concat]. rewrite Ma, K0.
    cbn [map] in D. apply NoDup_cons_iff in D as [D1 D2]. destruct Hm as [->|Hm].
    - rewrite same_refl. rewrite <- (app_nil_r (one m)) at 2. f_equal.
      clear - D1 K0 Ma. induction ms as [|m1 ms IH]; auto. cbn [map concat]. rewrite Ma, K0.
      destruct (same (key_sent m1) (key_sent m)) eqn:E; [apply same_eq in E; exfalso; apply D1; left; auto|]. apply IH. intros H. apply D1. right. auto.
    - destruct (same (key_sent m0) (key_sent m)) eqn:E; [apply same_eq in E; exfalso; apply D1; rewrite E; apply in_map; auto|]. apply IH; auto. }
  assert (Pm : forall k a b, Permutation a b -> Permutation (mine k a) (mine k b)).
  { clear. intros k a b H. unfold mine. induction H; cbn; auto; [destruct (same (key_of x) k); auto|destruct (same (key_of x) k), (same (key_of y) k); auto; constructor|etransitivity; eauto]. }
  assert (Z1 : forall m, In m ms -> mine (key_sent m) (fst (phone_q [] qs)) = [] /\ filter (fun o => same (fst o) (key_sent m)) (snd (phone_q [] qs)) = [(key_sent m, reassemble (snd m))]).
  { intros m Hm. pose proof (phone_proj (key_sent m) qs []) as X. cbn [mine filter] in X.
    rewrite (alone (key_sent m) (body_at (snd m)) (zlen (snd m))) in X.
    - injection X as X1 X2. unfold mine in *. rewrite body_all in X2. auto.
    - destruct m as [m ps]. destruct (C m ps Hm) as [Hc L]. pose proof (cut_pieces _ _ _ _ Hc L) as [_ Q]. cbn [snd]. lia.
    - reflexivity.
    - apply (Pm (key_sent m)) in P. rewrite K2, K3 in P; auto. }
  (* every key seen is one of ours *)
  assert (Kq : forall q, In q qs -> exists m, In m ms /\ key_of q = key_sent m).
  { intros q Q. apply (Permutation_in _ P), in_concat in Q as (l & Hl & Q). apply in_map_iff in Hl as (m & <- & Hm). exists m. split; auto. rewrite K3 in Q. unfold pieces in Q. apply in_map_iff in Q as (n & <- & _). reflexivity. }
  assert (Ks : forall qs l, (forall q, In q (l ++ qs) -> exists m, In m ms /\ key_of q = key_sent m) ->
     (forall q, In q (fst (phone_q l qs)) -> exists m, In m ms /\ key_of q = key_sent m) /\ (forall o, In o (snd (phone_q l qs)) -> exists m, In m ms /\ fst o = key_sent m)).
  { clear. induction qs as [|q qs IH]; intros l H; cbn [phone_q]; [cbn [fst snd]; split; [intros x Hx; apply H; rewrite app_nil_r; auto|intros o []]|].
    assert (Kq : exists m, In m ms /\ key_of q = key_sent m) by (apply H, in_or_app; right; left; auto).
    unfold arrives. destruct (gather (key_of q) _ (l ++ [q])) as [b|].
    - specialize (IH (filter (fun x => negb (same (key_of x) (key_of q))) (l ++ [q]))). destruct (phone_q _ qs) as [l2 o2]. cbn [fst snd] in *.
      destruct IH as [IH1 IH2].
      { intros x Hx. apply H. apply in_app_or in Hx as [Hx|Hx]; [|apply in_or_app; right; right; auto]. apply filter_In in Hx as [Hx _]. apply in_or_app. apply in_app_or in Hx as [Hx|[->|[]]]; [auto|right; left; auto]. }
      split; auto. intros o [<-|Ho]; auto.
    - specialize (IH (l ++ [q])). destruct (phone_q _ qs) as [l2 o2]. cbn [fst snd app] in *. apply IH. intros x Hx. apply H. rewrite <- app_assoc in Hx. exact Hx. }
  destruct (Ks qs [] Kq) as [S1 S2]. destruct (phone_q [] qs) as [pend out]. cbn [fst snd] in *.
  split.
  - destruct pend as [|q pend]; auto. destruct (S1 q (or_introl eq_refl)) as (m & Hm & E). destruct (Z1 m Hm) as [Z2 _]. cbn [mine filter] in Z2. rewrite E, same_refl in Z2. discriminate.
  - assert (Q : Permutation out (map (fun m => (key_sent m, reassemble (snd m))) ms)).
    { apply NoDup_Permutation.
      - clear - Z1 S2. assert (L : forall k, In k (map fst out) -> length (filter (fun o => same (fst o) k) out) = 1%nat).
        { intros k Hk. apply in_map_iff in Hk as (o & <- & Ho). destruct (S2 o Ho) as (m & Hm & ->). destruct (Z1 m Hm) as [_ ->]. reflexivity. }
        clear Z1 S2. induction out as [|o out IH]; constructor.
        + intros Ho. specialize (L (fst o) (or_introl eq_refl)). cbn [filter] in L. rewrite same_refl in L. cbn [length] in L.
          assert (F : In o (filter (fun x => same (fst x) (fst o)) out)) by (apply filter_In; split; auto; apply same_refl). destruct (filter _ out); [destruct F|cbn in L; lia].
        + apply IH. intros k Hk. specialize (L k (or_intror Hk)). cbn [filter] in L. destruct (same (fst o) k) eqn:E; auto. cbn [length] in L.
          apply in_map_iff in Hk as (o2 & <- & Ho2). assert (F : In o2 (filter (fun x => same (fst x) (fst o2)) out)) by (apply filter_In; split; auto; apply same_refl). destruct (filter _ out); [destruct F|cbn in L; lia].
      - eapply NoDup_map_inv with (f := fst). rewrite map_map. cbn [fst]. exact D.
      - intros o. rewrite in_map_iff. split.
        + intros Ho. destruct (S2 o Ho) as (m & Hm & E). exists m. split; auto. destruct (Z1 m Hm) as [_ F]. assert (X : In o (filter (fun x => same (fst x) (key_sent m)) out)) by (apply filter_In; split; auto; rewrite E; apply same_refl). rewrite F in X. destruct X as [<-|[]]. reflexivity.
        + intros (m & <- & Hm). destruct (Z1 m Hm) as [_ F]. assert (X : In (key_sent m, reassemble (snd m)) (filter (fun x => same (fst x) (key_sent m)) out)) by (rewrite F; left; auto). apply filter_In in X. apply X. }
    apply (Permutation_map snd) in Q. rewrite map_map in Q. exact Q.
Qed.
Print Assumptions C113_partial.

(** Two messages with the same number of parts sent at times whose last eight bits agree: an order of
    arrival in which each shown text begins with the one and goes on with the other. *)
Theorem C113_refuted : forall now1 size1 text1 ps1 now2 size2 text2 ps2,
  cut now1 size1 text1 ps1 -> cut now2 size2 text2 ps2 -> zlen ps1 <= 255 ->
  zlen ps1 = zlen ps2 -> group now1 = group now2 ->
  exists arrivals a1 r1 a2 r2, Permutation arrivals (ps1 ++ ps2) /\
    reassemble ps1 = a1 ++ r1 /\ reassemble ps2 = a2 ++ r2 /\ a1 = skipn 6 (nth 0 ps1 []) /\ a2 = skipn 6 (nth 0 ps2 []) /\
    shown arrivals = [a1 ++ r2; a2 ++ r1].
Proof.
  intros now1 size1 text1 ps1 now2 size2 text2 ps2 C1 C2 L Lz G.
  destruct (cut_pieces _ _ _ _ C1 L) as [R1 N1]. destruct (cut_pieces _ _ _ _ C2 ltac:(lia)) as [R2 N2].
  destruct ps1 as [|p1 ps1]; [unfold zlen in N1; cbn in N1; lia|]. destruct ps2 as [|p2 ps2]; [unfold zlen in N2; cbn in N2; lia|].
  set (t := zlen (p1 :: ps1)) in *. set (k := (group now1, t)).
  exists ((p1 :: ps2) ++ (p2 :: ps1)), (skipn 6 p1), (reassemble ps1), (skipn 6 p2), (reassemble ps2).
  split; [|split; [reflexivity|split; [reflexivity|split; [reflexivity|split; [reflexivity|]]]]].
  { cbn [app]. constructor. transitivity (p2 :: ps2 ++ ps1); [apply Permutation_sym, Permutation_middle|]. transitivity ((p2 :: ps2) ++ ps1); [reflexivity|apply Permutation_app_comm]. }
  (* the two mixtures *)
  assert (Q1 : read_all [p1] = [(k, 1, skipn 6 p1)] /\ read_all ps1 = map (fun n => (k, n, body_at (p1 :: ps1) n)) (map Z.of_nat (seq 2 (Z.to_nat t - 1)))).
  { unfold pieces, upto in R1. fold k in R1. destruct (Z.to_nat t) as [|T] eqn:ET; [lia|]. replace (S T - 1)%nat with T by lia. cbn [seq map] in R1. cbn [read_all] in R1 |- *.
    assert (X : length (read_all ps1) = T -> exists q, read_part p1 = Some q). { intros X. destruct (read_part p1) as [q|]; eauto. rewrite R1 in X. cbn [length] in X. rewrite !map_length, seq_length in X. lia. }
    destruct (read_part p1) as [q|] eqn:E.
    - injection R1 as -> R1. split; [reflexivity|exact R1].
    - exfalso. assert (length (read_all ps1) <= length ps1)%nat by (clear; induction ps1 as [|p l IH]; cbn; [lia|destruct (read_part p); cbn; lia]). rewrite R1 in H. cbn [length] in H. rewrite !map_length, seq_length in H. unfold t, zlen in ET. cbn [length] in ET. lia. }
  assert (Q2 : read_all [p2] = [(k, 1, skipn 6 p2)] /\ read_all ps2 = map (fun n => (k, n, body_at (p2 :: ps2) n)) (map Z.of_nat (seq 2 (Z.to_nat t - 1)))).
  { rewrite <- G, <- Lz in R2. unfold pieces, upto in R2. fold k in R2. destruct (Z.to_nat t) as [|T] eqn:ET; [lia|]. replace (S T - 1)%nat with T by lia. cbn [seq map] in R2. cbn [read_all] in R2 |- *.
    destruct (read_part p2) as [q|] eqn:E.
    - injection R2 as -> R2. split; [reflexivity|exact R2].
    - exfalso. assert (length (read_all ps2) <= length ps2)%nat by (clear; induction ps2 as [|p l IH]; cbn; [lia|destruct (read_part p); cbn; lia]). rewrite R2 in H. cbn [length] in H. rewrite !map_length, seq_length in H. rewrite Lz in ET. unfold zlen in ET. cbn [length] in ET. lia. }
  assert (Mix : forall pa psa pb psb, read_all [pa] = [(k, 1, skipn 6 pa)] -> read_all psb = map (fun n => (k, n, body_at (pb :: psb) n)) (map Z.of_nat (seq 2 (Z.to_nat t - 1))) -> t = zlen (pa :: psa) -> t = zlen (pb :: psb) ->
     phone_q [] (read_all (pa :: psb)) = ([], [(k, skipn 6 pa ++ reassemble psb)])).
  { intros pa psa pb psb Ha Hb La Lb.
    assert (E : read_all (pa :: psb) = pieces k (body_at (pa :: psb)) t).
    { change (pa :: psb) with ([pa] ++ psb). rewrite read_all_app, Ha, Hb. unfold pieces, upto. destruct (Z.to_nat t) as [|T] eqn:ET; [lia|]. replace (S T - 1)%nat with T by lia. cbn [seq map app]. f_equal. rewrite !map_map. apply map_ext_in. intros n Hn. apply in_seq in Hn. f_equal. unfold body_at. destruct (Z.to_nat (Z.of_nat n - 1)) eqn:X; [lia|]. reflexivity. }
    rewrite E. rewrite (alone k (body_at (pa :: psb)) t) by (auto; lia).
    assert (Lc : t = zlen (pa :: psb)) by (rewrite Lb; unfold zlen; cbn [length]; reflexivity).
    replace (upto t) with (upto (zlen (pa :: psb))) by (rewrite <- Lc; reflexivity). rewrite body_all. reflexivity. }
  assert (App : forall a l b, phone_q l (a ++ b) = let '(l1, o1) := phone_q l a in let '(l2, o2) := phone_q l1 b in (l2, o1 ++ o2)).
  { clear. induction a as [|q a IH]; intros l b; cbn [app phone_q]; [destruct (phone_q l b); auto|]. destruct (arrives l q) as [l1 o1]. rewrite IH. destruct (phone_q l1 a) as [l2 o2]. destruct (phone_q l2 b). rewrite app_assoc. auto. }
  unfold shown. rewrite phone_read, read_all_app, App.
  rewrite (Mix p1 ps1 p2 ps2) by (auto; apply Q1 || apply Q2). rewrite (Mix p2 ps2 p1 ps1) by (auto; apply Q1 || apply Q2). reflexivity.
Qed.
Print Assumptions C113_refuted.

(** The same two messages, their parts arriving in turns, each message in its own order: only the first
    is shown, and one part of the second is left waiting. *)
Lemma arrives_some l q b : gather (key_of q) (upto (snd (key_of q))) (l ++ [q]) = Some b -> arrives l q = (filter (fun x => negb (same (key_of x) (key_of q))) (l ++ [q]), [(key_of q, b)]).
Proof. intros H. unfold arrives. rewrite H. reflexivity. Qed.
Lemma arrives_none l q : gather (key_of q) (upto (snd (key_of q))) (l ++ [q]) = None -> arrives l q = (l ++ [q], []).
Proof. intros H. unfold arrives. rewrite H. reflexivity. Qed.
Definition in_turns (a b : list bytes) : list bytes := concat (map (fun x => [fst x; snd x]) (combine a b)).
Lemma read_full ps : length (read_all ps) = length ps -> map read_part ps = map Some (read_all ps).
Proof.
  assert (Le : forall l, (length (read_all l) <= length l)%nat) by (induction l as [|p l IH]; cbn; [lia|destruct (read_part p); cbn; lia]).
  induction ps as [|p ps IH]; cbn; auto. specialize (Le ps). destruct (read_part p); cbn; intros H; [f_equal; apply IH; lia|lia].
Qed.
Theorem C113_refuted_lost : forall now1 size1 text1 ps1 now2 size2 text2 ps2,
  cut now1 size1 text1 ps1 -> cut now2 size2 text2 ps2 -> zlen ps1 <= 255 ->
  zlen ps1 = zlen ps2 -> group now1 = group now2 ->
  Permutation (in_turns ps1 ps2) (ps1 ++ ps2) /\ shown (in_turns ps1 ps2) = [reassemble ps1].
Proof.
  intros now1 size1 text1 ps1 now2 size2 text2 ps2 C1 C2 L Lz G.
  destruct (cut_pieces _ _ _ _ C1 L) as [R1 N1]. destruct (cut_pieces _ _ _ _ C2 ltac:(lia)) as [R2 N2]. rewrite <- Lz, <- G in R2.
  assert (Ln : length ps1 = length ps2) by (unfold zlen in Lz; lia).
  split.
  { clear - Ln. unfold in_turns. revert ps2 Ln. induction ps1 as [|p ps1 IH]; intros [|q ps2] Ln; cbn in Ln |- *; try discriminate; auto. constructor.
    transitivity (q :: ps1 ++ ps2); [constructor; apply IH; lia|apply Permutation_middle]. }
  set (t := zlen ps1) in *. set (k := (group now1, t)) in *. set (f := body_at ps1) in *. set (g := body_at ps2) in *.
  set (fl := fun ns : list Z => concat (map (fun n => [(k, n, f n); (k, n, g n)]) ns)).
  assert (Q : read_all (in_turns ps1 ps2) = fl (upto t)).
  { assert (F1 : map read_part ps1 = map Some (pieces k f t)) by (rewrite <- R1; apply read_full; rewrite R1; unfold pieces; rewrite map_length, upto_len by lia; unfold t, zlen; lia).
    assert (F2 : map read_part ps2 = map Some (pieces k g t)) by (rewrite <- R2; apply read_full; rewrite R2; unfold pieces; rewrite map_length, upto_len by lia; rewrite Lz; unfold zlen; lia).
    unfold pieces, in_turns, fl in *. clear - F1 F2. clearbody f g k. clearbody t. revert ps1 ps2 F1 F2. induction (upto t) as [|n ns IH]; intros [|p ps1] [|q ps2] F1 F2; cbn in F1, F2; try discriminate; auto.
    injection F1 as F1 F1'. injection F2 as F2 F2'. cbn. rewrite F1, F2. do 2 f_equal. apply IH; auto. }
  assert (U : upto t = upto (t - 1) ++ [t]).
  { unfold upto. replace (Z.to_nat t) with (S (Z.to_nat (t - 1))) by lia. rewrite seq_S, map_app. cbn [map]. do 2 f_equal. lia. }
  assert (Qin : forall q ns, In q (fl ns) -> key_of q = k /\ In (num_of q) ns).
  { intros q ns. unfold fl. rewrite in_concat. intros (x & Hx & Hq). apply in_map_iff in Hx as (n & <- & Hn). destruct Hq as [<-|[<-|[]]]; auto. }
  assert (Pk : forall n ns r, In n ns -> pick k n (fl ns ++ r) = Some (f n)).
  { intros n ns r. unfold fl. induction ns as [|m ns IH]; intros H; [destruct H|]. cbn [map concat app pick key_of num_of fst snd]. rewrite same_refl. cbn [andb]. destruct (m =? n) eqn:E; [do 2 f_equal; lia|]. apply IH. destruct H; [lia|auto]. }
  assert (Pn : pick k t (fl (upto (t - 1))) = None).
  { apply pick_none. intros q Hq. apply Qin in Hq as [_ Hq]. apply upto_in in Hq. lia. }
  assert (Pt : pick k t (fl (upto (t - 1)) ++ [(k, t, f t)]) = Some (f t)).
  { revert Pn. generalize (fl (upto (t - 1))) as l. induction l as [|q l IH]; cbn [pick app key_of num_of fst snd]; [rewrite same_refl, Z.eqb_refl; reflexivity|]. destruct (_ && _); [discriminate|]. exact IH. }
  assert (M : phone_q [] (fl (upto (t - 1))) = (fl (upto (t - 1)), [])).
  { rewrite (missing k t t) with (l := []); auto; [lia|]. cbn [app]. intros q Hq. apply Qin in Hq as [Kq Hq]. apply upto_in in Hq. split; auto. lia. }
  assert (App : forall a l b, phone_q l (a ++ b) = let '(l1, o1) := phone_q l a in let '(l2, o2) := phone_q l1 b in (l2, o1 ++ o2)).
  { clear. induction a as [|q a IH]; intros l b; cbn [app phone_q]; [destruct (phone_q l b); auto|]. destruct (arrives l q) as [l1 o1]. rewrite IH. destruct (phone_q l1 a) as [l2 o2]. destruct (phone_q l2 b). rewrite app_assoc. auto. }
  assert (Ga : gather k (upto t) (fl (upto (t - 1)) ++ [(k, t, f t)]) = Some (concat (map f (upto t)))).
  { assert (X : forall ns, (forall n, In n ns -> pick k n (fl (upto (t - 1)) ++ [(k, t, f t)]) = Some (f n)) -> gather k ns (fl (upto (t - 1)) ++ [(k, t, f t)]) = Some (concat (map f ns))).
    { induction ns as [|n ns IH]; intros H; cbn [gather map concat]; auto. rewrite H by (left; auto). rewrite IH by (intros; apply H; right; auto). reflexivity. }
    apply X. intros n Hn. rewrite U in Hn. apply in_app_or in Hn as [Hn|[<-|[]]]; auto. }
  unfold shown. rewrite phone_read, Q.
  replace (fl (upto t)) with (fl (upto (t - 1)) ++ [(k, t, f t); (k, t, g t)]) by (rewrite U; unfold fl; rewrite map_app, concat_app; reflexivity).
  assert (Fn : filter (fun x => negb (same (key_of x) k)) (fl (upto (t - 1)) ++ [(k, t, f t)]) = []).
  { assert (X : forall l, (forall q, In q l -> key_of q = k) -> filter (fun x => negb (same (key_of x) k)) l = []) by (induction l as [|q l IH]; intros H; cbn [filter]; auto; rewrite (H q (or_introl eq_refl)), same_refl; cbn; apply IH; intros; apply H; right; auto).
    apply X. intros q Hq. apply in_app_or in Hq as [Hq|[<-|[]]]; [apply Qin in Hq; apply Hq|reflexivity]. }
  assert (A1 : arrives (fl (upto (t - 1))) (k, t, f t) = ([], [(k, concat (map f (upto t)))])).
  { rewrite <- Fn. exact (arrives_some (fl (upto (t - 1))) (k, t, f t) _ Ga). }
  assert (A2 : arrives [] (k, t, g t) = ([(k, t, g t)], [])).
  { apply (arrives_none [] (k, t, g t)). apply (gather_none k 1 (upto t) [(k, t, g t)]); [apply upto_in; lia|intros q [<-|[]]; cbn; lia]. }
  rewrite App, M. cbn [phone_q]. rewrite A1, A2.
  cbn [map snd app]. unfold f, t. rewrite body_all. reflexivity.
Qed.
Print Assumptions C113_refuted_lost.

(** Of any 257 long messages with as many parts each, two are mixed up by some order of arrival. *)
Lemma twice (l : list key) : NoDup l \/ exists a l1 l2 l3, l = l1 ++ a :: l2 ++ a :: l3.
Proof.
  induction l as [|k l [IH|(a & l1 & l2 & l3 & ->)]]; [left; constructor| |right; exists a, (k :: l1), l2, l3; reflexivity].
  assert (D : {In k l} + {~ In k l}). { apply in_dec. intros x y. destruct (same x y) eqn:E; [left; apply same_eq; auto|right; intros X; apply same_eq in X; congruence]. }
  destruct D as [D|D]; [|left; constructor; auto]. apply in_split in D as (l2 & l3 & ->). right. exists k, [], l2, l3. reflexivity.
Qed.
Lemma repeated (l : list key) : (forall k, In k l -> 0 <= fst k <= 255) -> (forall k j, In k l -> In j l -> snd k = snd j) -> (256 < length l)%nat ->
  exists a l1 l2 l3, l = l1 ++ a :: l2 ++ a :: l3.
Proof.
  intros H S2 L. destruct (twice l) as [D|D]; [exfalso|exact D].
  destruct l as [|k0 l0]; [cbn in L; lia|].
  assert (X : (length (k0 :: l0) <= length (map (fun r => (Z.of_nat r, snd k0)) (seq 0 256)))%nat).
  { apply NoDup_incl_length; auto. intros k Hk. apply in_map_iff. exists (Z.to_nat (fst k)). pose proof (H k Hk). split.
    - rewrite (S2 k0 k) by (auto; left; auto). destruct k as [a b]. cbn [fst snd] in *. f_equal. lia.
    - apply in_seq. lia. }
  rewrite map_length, seq_length in X. lia.
Qed.
Lemma group_range now : 0 <= group now <= 255.
Proof. unfold group. change 255 with (Z.ones 8). rewrite Z.land_ones by lia. pose proof (Z.mod_pos_bound now (2 ^ 8) ltac:(lia)). change (2 ^ 8) with 256 in *. change (Z.ones 8) with 255. lia. Qed.
Theorem C113_refuted_many : forall (ms : list (sent * list bytes)) t,
  (forall m ps, In (m, ps) ms -> cut (fst (fst m)) (snd (fst m)) (snd m) ps /\ zlen ps = t) -> t <= 255 ->
  (256 < length ms)%nat ->
  exists l1 m1 ps1 l2 m2 ps2 l3 arrivals, ms = l1 ++ (m1, ps1) :: l2 ++ (m2, ps2) :: l3 /\
    Permutation arrivals (ps1 ++ ps2) /\
    shown arrivals = [skipn 6 (nth 0 ps1 []) ++ reassemble (tl ps2); skipn 6 (nth 0 ps2 []) ++ reassemble (tl ps1)].
Proof.
  intros ms t C T255 L.
  destruct (repeated (map key_sent ms)) as (a & k1 & k2 & k3 & E).
  { intros k Hk. apply in_map_iff in Hk as ([m ps] & <- & _). apply group_range. }
  { intros k j Hk Hj. apply in_map_iff in Hk as ([m ps] & <- & Hk). apply in_map_iff in Hj as ([m' ps'] & <- & Hj). cbn. destruct (C _ _ Hk), (C _ _ Hj). congruence. }
  { rewrite map_length. auto. }
  apply map_eq_app in E as (l1 & r1 & -> & E1 & E). apply map_eq_cons in E as ([m1 ps1] & r2 & -> & Ea & E).
  apply map_eq_app in E as (l2 & r3 & -> & E2 & E). apply map_eq_cons in E as ([m2 ps2] & l3 & -> & Eb & E3).
  assert (I1 : In (m1, ps1) (l1 ++ (m1, ps1) :: l2 ++ (m2, ps2) :: l3)) by (apply in_or_app; right; left; auto).
  assert (I2 : In (m2, ps2) (l1 ++ (m1, ps1) :: l2 ++ (m2, ps2) :: l3)) by (apply in_or_app; right; right; apply in_or_app; right; left; auto).
  destruct (C _ _ I1) as [C1 T1], (C _ _ I2) as [C2 T2]. rewrite <- Eb in Ea. unfold key_sent in Ea. cbn [fst snd] in Ea. injection Ea as G Lz.
  destruct (C113_refuted _ _ _ _ _ _ _ _ C1 C2 ltac:(lia) Lz G) as (arr & a1 & b1 & a2 & b2 & P & X1 & X2 & Y1 & Y2 & Sh).
  exists l1, m1, ps1, l2, m2, ps2, l3, arr. split; [reflexivity|split; [exact P|]]. rewrite Sh.
  assert (N1 : 2 <= zlen ps1) by (apply (cut_pieces _ _ _ _ C1); lia). assert (N2 : 2 <= zlen ps2) by (apply (cut_pieces _ _ _ _ C2); lia).
  destruct ps1 as [|p1 ps1]; [unfold zlen in N1; cbn in N1; lia|]. destruct ps2 as [|p2 ps2]; [unfold zlen in N2; cbn in N2; lia|].
  cbn [nth tl] in *. subst a1 a2. unfold reassemble in X1, X2 |- *. cbn [map concat] in X1, X2. apply app_inv_head in X1, X2. rewrite <- X1, <- X2. reflexivity.
Qed.
Print Assumptions C113_refuted_many.

(** A text cut into more than 255 parts: whatever parts of it arrive, as often and in whatever order,
    no text shown is as long as the one sent. *)
Lemma gather_len k B : forall ns l b, (forall q, In q l -> zlen (snd q) <= B) -> gather k ns l = Some b -> zlen b <= zlen ns * B.
Proof.
  induction ns as [|n ns IH]; intros l b H E; cbn [gather] in E; [injection E as <-; unfold zlen; cbn; lia|].
  destruct (pick k n l) as [x|] eqn:P; [|discriminate]. destruct (gather k ns l) as [y|] eqn:G; [|discriminate]. injection E as <-.
  assert (X : zlen x <= B).
  { clear - P H. induction l as [|q l IH]; [discriminate|]. cbn [pick] in P. destruct (same (key_of q) k && (num_of q =? n)); [injection P as <-; apply H; left; auto|]. apply IH; auto. intros; apply H; right; auto. }
  specialize (IH l y H G). rewrite zlen_app. replace (zlen (n :: ns)) with (zlen ns + 1) by (unfold zlen; cbn [length]; lia). lia.
Qed.
Lemma shown_len B (qs : list piece) : 0 <= B -> forall l : list piece, (forall q : piece, In q (l ++ qs) -> zlen (snd q) <= B /\ snd (key_of q) <= 255) -> forall o, In o (snd (phone_q l qs)) -> zlen (snd o) <= 255 * B.
Proof.
  intros HB. induction qs as [|q qs IH]; intros l H o Ho; cbn [phone_q] in Ho; [destruct Ho|].
  assert (Q : zlen (snd q) <= B /\ snd (key_of q) <= 255) by (apply H, in_or_app; right; left; auto).
  unfold arrives in Ho. destruct (gather (key_of q) (upto (snd (key_of q))) (l ++ [q])) as [b|] eqn:G; cbv beta iota in Ho.
  - specialize (IH (filter (fun x => negb (same (key_of x) (key_of q))) (l ++ [q]))). destruct (phone_q _ qs) as [l2 o2]. cbn [fst snd app] in *. destruct Ho as [<-|Ho].
    + apply (gather_len _ B) in G.
      * cbn [snd]. assert (zlen (upto (snd (key_of q))) <= 255) by (unfold zlen, upto; rewrite map_length, seq_length; lia). nia.
      * intros x Hx. apply H. apply in_app_or in Hx as [Hx|[->|[]]]; apply in_or_app; [auto|right; left; auto].
    + apply IH; auto. intros x Hx. apply H. apply in_app_or in Hx as [Hx|Hx]; apply in_or_app; [|right; right; auto]. apply filter_In in Hx as [Hx _]. apply in_app_or in Hx as [?|[->|[]]]; [auto|right; left; auto].
  - specialize (IH (l ++ [q])). destruct (phone_q _ qs) as [l2 o2]. cbn [fst snd app] in *. apply IH; auto. intros x Hx. apply H. rewrite <- app_assoc in Hx. exact Hx.
Qed.
Theorem C113_refuted_long : forall now size text ps arrivals s, cut now size text ps -> 255 < zlen ps -> incl arrivals ps ->
  In s (shown arrivals) -> zlen s < zlen text.
Proof.
  intros now size text ps arr s (H1 & H2 & E) N Inc Hs. pose proof (split_zlen _ _ _ _ H1 H2 E) as Lz.
  pose proof (nparts_bounds (zlen text) (size - 6) ltac:(lia) ltac:(lia)) as [Bn _]. rewrite <- Lz in Bn.
  enough (zlen s <= 255 * (size - 6)) by nia.
  unfold shown in Hs. rewrite phone_read in Hs. apply in_map_iff in Hs as (o & <- & Ho). apply (shown_len (size - 6) (read_all arr)) with (l := []); auto; [lia|]. cbn [app].
  rewrite split_ok in E by auto. match type of E with Ok ?x = Ok _ => assert (E' : x = ps) by congruence end. clear E Ho o.
  intros q Hq. assert (Hp : exists p, In p arr /\ read_part p = Some q).
  { clear - Hq. induction arr as [|p arr IH]; [destruct Hq|]. cbn [read_all] in Hq. destruct (read_part p) as [x|] eqn:X; [destruct Hq as [->|Hq]; [exists p; split; auto; left; auto|]|]; destruct IH as (p' & ? & ?); auto; exists p'; split; auto; right; auto. }
  destruct Hp as (p & Ip & Rp). apply Inc in Ip. rewrite <- E' in Ip. apply in_map_iff in Ip as (i & <- & _).
  unfold head6 in Rp. cbn [app read_part] in Rp. destruct (_ && _) in Rp; [|discriminate]. injection Rp as <-. unfold key_of. cbn [fst snd]. split.
  - unfold split_body. pose proof (Z.mod_pos_bound (zlen text) (size - 6) ltac:(lia)). destruct (_ =? _); unfold zlen at 1; rewrite firstn_length; lia.
  - unfold u8. pose proof (Z.mod_pos_bound (nparts (zlen text) (size - 6)) 256 ltac:(lia)). lia.
Qed.
Print Assumptions C113_refuted_long.

(** Three messages in packages of 8 octets: the first and the second sent at the same time with a
    different number of parts, the third 256 ns later with as many parts as the first. *)
Example C113_case :
  exists p1 p2 p3, cut 511 8 [1;2;3;4;5;6;7;8;1] p1 /\ cut 511 8 [11;12;13;14;15;16;17;18;19;20;11] p2 /\ cut 767 8 [21;22;23;24;25;26;27;28;21] p3 /\
    zlen p1 = 5 /\ zlen p2 = 6 /\ zlen p3 = 5 /\
    Permutation (shown (rev p2 ++ p1)) [[11;12;13;14;15;16;17;18;19;20;11]; [1;2;3;4;5;6;7;8;1]] /\
    shown (hd [] p1 :: tl p3 ++ hd [] p3 :: tl p1) = [[1;2;23;24;25;26;27;28;21]; [21;22;3;4;5;6;7;8;1]] /\
    shown (in_turns p1 p3) = [[1;2;3;4;5;6;7;8;1]].
Proof.
  do 3 eexists. repeat (split; [cbv [cut]; repeat (split; [vm_compute; congruence || reflexivity|]); vm_compute; reflexivity|]).
  repeat (split; [vm_compute; reflexivity || apply Permutation_refl|]). vm_compute. reflexivity.
Qed.
