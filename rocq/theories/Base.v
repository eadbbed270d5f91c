(** * Base: bytes, Go slices, results with explicit panics.

    Conventions shared by every model file.
    - A Go [byte] is a [Z]; [is_byte] gives its range.  A Go [[]byte] or [string]
      is a [list Z] ([bytes]).
    - Go [int] indices and lengths are [Z] (no 64-bit wrap: Go slice lengths are
      far below 2^63; simplification recorded in DESIGN.md).
    - An operation that Go aborts with a run-time panic (index or slice bounds out
      of range, nil dereference) yields [Panic]. *)

From Coq Require Export ZArith List Bool Lia.
From Coq Require Export ZifyBool ZifyNat.
Export ListNotations.
Global Open Scope Z_scope.
Ltac Zify.zify_post_hook ::= Z.div_mod_to_equations.

Definition byte := Z.
Definition bytes := list Z.
Definition is_byte (b : Z) : Prop := 0 <= b < 256.
Definition bytes_ok (l : bytes) : Prop := Forall is_byte l.

(** Length of a list as a Go [int]. *)
Definition zlen {A} (l : list A) : Z := Z.of_nat (length l).

(** Result of a Go call: normal return, returned error (with a tag), or panic. *)
Inductive res (A : Type) : Type :=
| Ok (a : A)
| Err (e : Z)
| Panic.
Arguments Ok {A} a.
Arguments Err {A} e.
Arguments Panic {A}.

Definition bind {A B} (x : res A) (f : A -> res B) : res B :=
  match x with Ok a => f a | Err e => Err e | Panic => Panic end.

Notation "x <- e ;; b" := (bind e (fun x => b))
  (at level 60, e at next level, right associativity).
Notation "' p <- e ;; b" := (bind e (fun p => b))
  (at level 60, p pattern, e at next level, right associativity).

(** Unsigned truncation, Go's conversions [byte(x)], [uint16(x)], ... *)
Definition u8 (x : Z) : Z := x mod 256.
Definition u16 (x : Z) : Z := x mod 65536.
Definition u32 (x : Z) : Z := x mod 4294967296.
Definition u64 (x : Z) : Z := x mod 18446744073709551616.
(** Signed truncation, Go's [int32(x)], [int64(x)] (two's complement). *)
Definition i32 (x : Z) : Z :=
  let y := u32 x in if y <? 2147483648 then y else y - 4294967296.
Definition i64 (x : Z) : Z :=
  let y := u64 x in if y <? 9223372036854775808 then y else y - 18446744073709551616.

(** [n] zero bytes: Go's [make([]byte, n)]. *)
Definition zeros (n : Z) : bytes := repeat 0 (Z.to_nat n).

(** Go slice expression [f[lo:hi]] on a slice whose capacity equals its length. *)
Definition slice {A} (f : list A) (lo hi : Z) : res (list A) :=
  if (0 <=? lo) && (lo <=? hi) && (hi <=? zlen f)
  then Ok (firstn (Z.to_nat (hi - lo)) (skipn (Z.to_nat lo) f))
  else Panic.

(** Go index expression [f[i]]. *)
Definition at_ {A} (f : list A) (i : Z) : res A :=
  if (0 <=? i) && (i <? zlen f)
  then match nth_error f (Z.to_nat i) with Some x => Ok x | None => Panic end
  else Panic.

(** Overwrite list positions starting at [lo] by [src] (no bounds check). *)
Definition splice (f : bytes) (lo : Z) (src : bytes) : bytes :=
  firstn (Z.to_nat lo) f ++ src ++ skipn (Z.to_nat lo + length src) f.

(** Go statement [copy(f[lo:hi], src)]. *)
Definition copy_at (f : bytes) (lo hi : Z) (src : bytes) : res bytes :=
  if (0 <=? lo) && (lo <=? hi) && (hi <=? zlen f)
  then Ok (splice f lo (firstn (Z.to_nat (hi - lo)) src))
  else Panic.

(** Go statement [f[i] = b]. *)
Definition set_at (f : bytes) (i : Z) (b : Z) : res bytes :=
  if (0 <=? i) && (i <? zlen f) then Ok (splice f i [b]) else Panic.

(** Big-endian bytes of [v] ([n] of them, higher bits dropped). *)
Fixpoint be (n : nat) (v : Z) : bytes :=
  match n with
  | O => []
  | S n' => be n' (v / 256) ++ [v mod 256]
  end.

(** Value of a big-endian byte string. *)
Definition unbe (l : bytes) : Z := fold_left (fun a b => a * 256 + b) l 0.

(** [binary.BigEndian.PutUintN(f[lo:hi], v)]: panics if the slice is shorter
    than the integer, writes exactly [n] bytes. *)
Definition put_be (n : nat) (f : bytes) (lo hi : Z) (v : Z) : res bytes :=
  if (0 <=? lo) && (lo <=? hi) && (hi <=? zlen f) && (Z.of_nat n <=? hi - lo)
  then Ok (splice f lo (be n v)) else Panic.

(** [binary.BigEndian.UintN(f[lo:hi])]. *)
Definition get_be (n : nat) (f : bytes) (lo hi : Z) : res Z :=
  s <- slice f lo hi ;;
  if Z.of_nat n <=? zlen s then Ok (unbe (firstn n s)) else Panic.

(** Bytes written by a text field of width [w] in a zeroed frame:
    the text cut at [w], then NULs. *)
Definition fit (w : nat) (s : bytes) : bytes :=
  firstn w s ++ repeat 0 (w - length s).

(* ------------------------------------------------------------------ *)
(** ** Lemmas *)

Lemma zlen_nonneg {A} (l : list A) : 0 <= zlen l.
Proof. unfold zlen; lia. Qed.
Lemma zlen_nil {A} : zlen (@nil A) = 0.
Proof. reflexivity. Qed.
Lemma zlen_cons {A} (x : A) l : zlen (x :: l) = 1 + zlen l.
Proof. unfold zlen; cbn [length]; lia. Qed.
Lemma zlen_app {A} (a b : list A) : zlen (a ++ b) = zlen a + zlen b.
Proof. unfold zlen; rewrite app_length; lia. Qed.
Lemma zlen_repeat {A} (x : A) n : zlen (repeat x n) = Z.of_nat n.
Proof. unfold zlen; rewrite repeat_length; lia. Qed.
Lemma zlen_zeros n : 0 <= n -> zlen (zeros n) = n.
Proof. intros; unfold zeros; rewrite zlen_repeat; lia. Qed.
Lemma zlen_map {A B} (f : A -> B) l : zlen (map f l) = zlen l.
Proof. unfold zlen; rewrite map_length; lia. Qed.
Lemma length_be n : forall v, length (be n v) = n.
Proof. induction n; intros; cbn [be]; [reflexivity|]. rewrite app_length, IHn; cbn; lia. Qed.
Lemma zlen_be n v : zlen (be n v) = Z.of_nat n.
Proof. unfold zlen; rewrite length_be; reflexivity. Qed.
Lemma length_fit w s : length (fit w s) = w.
Proof. unfold fit; rewrite app_length, firstn_length, repeat_length; lia. Qed.
Lemma zlen_fit w s : zlen (fit w s) = Z.of_nat w.
Proof. unfold zlen; rewrite length_fit; reflexivity. Qed.

Global Hint Rewrite @zlen_nil @zlen_cons @zlen_app @zlen_repeat @zlen_map zlen_be zlen_fit
  : zlen.

Lemma bytes_ok_app a b : bytes_ok (a ++ b) <-> bytes_ok a /\ bytes_ok b.
Proof. unfold bytes_ok; rewrite Forall_app; tauto. Qed.
Lemma bytes_ok_repeat0 n : bytes_ok (repeat 0 n).
Proof. unfold bytes_ok; induction n; cbn; constructor; auto; unfold is_byte; lia. Qed.
Lemma bytes_ok_firstn n l : bytes_ok l -> bytes_ok (firstn n l).
Proof.
  unfold bytes_ok; revert l; induction n; intros l H; cbn; [constructor|].
  destruct l; [constructor|]. inversion H; subst; constructor; auto.
Qed.
Lemma bytes_ok_skipn n l : bytes_ok l -> bytes_ok (skipn n l).
Proof.
  unfold bytes_ok; revert l; induction n; intros l H; cbn; auto.
  destruct l; [constructor|]. inversion H; subst; auto.
Qed.
Lemma bytes_ok_be n : forall v, bytes_ok (be n v).
Proof.
  induction n; intros v; cbn [be]; [constructor|].
  apply bytes_ok_app; split; auto. repeat constructor; unfold is_byte; lia.
Qed.
Lemma bytes_ok_fit w s : bytes_ok s -> bytes_ok (fit w s).
Proof.
  intros; unfold fit; apply bytes_ok_app; split;
  [apply bytes_ok_firstn; auto | apply bytes_ok_repeat0].
Qed.

Lemma fold_be_gen l : forall a, fold_left (fun a b => a * 256 + b) l a
  = a * 256 ^ zlen l + fold_left (fun a b => a * 256 + b) l 0.
Proof.
  induction l as [|x l IH]; intros a; cbn [fold_left].
  - rewrite zlen_nil; lia.
  - rewrite IH. rewrite (IH (0*256+x)). rewrite zlen_cons.
    rewrite Z.pow_add_r; [|lia|apply zlen_nonneg]. ring.
Qed.

Lemma unbe_app a b : unbe (a ++ b) = unbe a * 256 ^ zlen b + unbe b.
Proof. unfold unbe; rewrite fold_left_app, fold_be_gen; reflexivity. Qed.

Lemma unbe_snoc a x : unbe (a ++ [x]) = unbe a * 256 + x.
Proof. unfold unbe; rewrite fold_left_app; reflexivity. Qed.

Lemma unbe_be n : forall v, unbe (be n v) = v mod 256 ^ Z.of_nat n.
Proof.
  induction n; intros v; cbn [be].
  - cbn. rewrite Z.mod_1_r; reflexivity.
  - rewrite unbe_snoc, IHn.
    replace (Z.of_nat (S n)) with (Z.of_nat n + 1) by lia.
    rewrite Z.pow_add_r by lia. change (256 ^ 1) with 256.
    rewrite (Z.mul_comm (256 ^ Z.of_nat n)).
    rewrite Z.rem_mul_r by lia. lia.
Qed.

Lemma unbe_be_small n v : 0 <= v < 256 ^ Z.of_nat n -> unbe (be n v) = v.
Proof. intros; rewrite unbe_be, Z.mod_small; auto. Qed.

Lemma unbe_range l : bytes_ok l -> 0 <= unbe l < 256 ^ zlen l.
Proof.
  induction l as [|x l IH] using rev_ind; intros H.
  - cbn; lia.
  - apply bytes_ok_app in H as [Ha Hb]. inversion Hb; subst.
    rewrite unbe_snoc, zlen_app. specialize (IH Ha). unfold is_byte in *.
    rewrite Z.pow_add_r by (autorewrite with zlen; try lia; apply zlen_nonneg).
    change (256 ^ zlen [x]) with 256. nia.
Qed.

Lemma be_unbe l : bytes_ok l -> be (length l) (unbe l) = l.
Proof.
  induction l as [|x l IH] using rev_ind; intros H; [reflexivity|].
  apply bytes_ok_app in H as [Ha Hb]. inversion Hb; subst.
  rewrite app_length, Nat.add_comm. cbn [length plus be].
  rewrite unbe_snoc. unfold is_byte in *.
  replace ((unbe l * 256 + x) / 256) with (unbe l) by (apply Z.div_unique with x; lia).
  replace ((unbe l * 256 + x) mod 256) with x by (apply Z.mod_unique with (unbe l); lia).
  rewrite IH; auto.
Qed.

Lemma be_inj n a b : 0 <= a < 256 ^ Z.of_nat n -> 0 <= b < 256 ^ Z.of_nat n ->
  be n a = be n b -> a = b.
Proof. intros Ha Hb E. rewrite <- (unbe_be_small n a), <- (unbe_be_small n b), E; auto. Qed.

(** *** Reading *)

Lemma slice_app_r {A} (x f : list A) lo hi : zlen x <= lo ->
  slice (x ++ f) lo hi = slice f (lo - zlen x) (hi - zlen x).
Proof.
  intros H. unfold slice. rewrite zlen_app. pose proof (zlen_nonneg x) as Hx.
  replace (0 <=? lo) with true by lia.
  replace (0 <=? lo - zlen x) with true by lia.
  replace (lo - zlen x <=? hi - zlen x) with (lo <=? hi) by lia.
  replace (hi - zlen x <=? zlen f) with (hi <=? zlen x + zlen f) by lia.
  destruct ((true && (lo <=? hi)) && (hi <=? zlen x + zlen f)); [|reflexivity].
  do 2 f_equal; [lia|]. rewrite skipn_app.
  rewrite skipn_all2 by (unfold zlen in *; lia). cbn [app].
  f_equal. unfold zlen in *; lia.
Qed.

Lemma slice_app_l {A} (x f : list A) hi : hi = zlen x ->
  slice (x ++ f) 0 hi = Ok x.
Proof.
  intros ->. unfold slice. rewrite zlen_app.
  pose proof (zlen_nonneg x). pose proof (zlen_nonneg f).
  replace ((0 <=? 0) && (0 <=? zlen x) && (zlen x <=? zlen x + zlen f)) with true by lia.
  change (skipn (Z.to_nat 0) (x ++ f)) with (x ++ f).
  replace (Z.to_nat (zlen x - 0)) with (length x) by (unfold zlen; lia).
  rewrite firstn_app, firstn_all, Nat.sub_diag, firstn_O, app_nil_r. reflexivity.
Qed.

Lemma slice_all {A} (x : list A) hi : hi = zlen x -> slice x 0 hi = Ok x.
Proof. intros. rewrite <- (app_nil_r x) at 1. apply slice_app_l; auto. Qed.

Lemma slice_empty {A} (f : list A) lo : 0 <= lo <= zlen f -> slice f lo lo = Ok [].
Proof.
  intros H; unfold slice.
  replace ((0 <=? lo) && (lo <=? lo) && (lo <=? zlen f)) with true by lia.
  rewrite Z.sub_diag; reflexivity.
Qed.

Lemma slice_ok_iff {A} (f : list A) lo hi :
  (exists s, slice f lo hi = Ok s) <-> 0 <= lo <= hi /\ hi <= zlen f.
Proof.
  unfold slice; destruct ((0 <=? lo) && (lo <=? hi) && (hi <=? zlen f)) eqn:E; split; intros H;
    try lia; eauto. destruct H; discriminate.
Qed.

Lemma slice_len {A} (f : list A) lo hi s : slice f lo hi = Ok s -> zlen s = hi - lo.
Proof.
  unfold slice; destruct ((0 <=? lo) && (lo <=? hi) && (hi <=? zlen f)) eqn:E; intros H;
    inversion H; subst. unfold zlen in *. rewrite firstn_length, skipn_length. lia.
Qed.

Lemma slice_noerr {A} (f : list A) lo hi e : slice f lo hi <> Err e.
Proof. unfold slice; destruct (_ && _); discriminate. Qed.

Lemma slice_bytes_ok f lo hi s : bytes_ok f -> slice f lo hi = Ok s -> bytes_ok s.
Proof.
  unfold slice; destruct (_ && _); intros Hf H; inversion H; subst.
  apply bytes_ok_firstn, bytes_ok_skipn; auto.
Qed.

Lemma at_app_r {A} (x f : list A) i : zlen x <= i -> at_ (x ++ f) i = at_ f (i - zlen x).
Proof.
  intros H. unfold at_. rewrite zlen_app. pose proof (zlen_nonneg x).
  replace ((0 <=? i) && (i <? zlen x + zlen f))
    with ((0 <=? i - zlen x) && (i - zlen x <? zlen f)) by lia.
  destruct (_ && _) eqn:E; [|reflexivity].
  rewrite nth_error_app2 by (unfold zlen in *; lia).
  replace (Z.to_nat i - length x)%nat with (Z.to_nat (i - zlen x)) by (unfold zlen in *; lia).
  reflexivity.
Qed.

Lemma at_here {A} (x : A) f : at_ (x :: f) 0 = Ok x.
Proof.
  unfold at_. rewrite zlen_cons. pose proof (zlen_nonneg f).
  replace ((0 <=? 0) && (0 <? 1 + zlen f)) with true by lia. reflexivity.
Qed.

Lemma at_cons_r {A} (x : A) f i : 1 <= i -> at_ (x :: f) i = at_ f (i - 1).
Proof. intros. change (x :: f) with ([x] ++ f). rewrite at_app_r by (cbn; lia). reflexivity. Qed.

Lemma at_ok_iff {A} (f : list A) i : (exists x, at_ f i = Ok x) <-> 0 <= i < zlen f.
Proof.
  unfold at_. destruct ((0 <=? i) && (i <? zlen f)) eqn:E; split; intros H; try lia.
  - destruct (nth_error f (Z.to_nat i)) eqn:N; [eauto|].
    apply nth_error_None in N. unfold zlen in *; lia.
  - destruct H; discriminate.
Qed.

Lemma at_panic_iff {A} (f : list A) i : at_ f i = Panic <-> ~ (0 <= i < zlen f).
Proof.
  rewrite <- at_ok_iff. split.
  - intros E [x H]. congruence.
  - intros H. unfold at_ in *. destruct (_ && _); auto.
    destruct (nth_error f (Z.to_nat i)) eqn:N; auto. destruct H; eauto.
Qed.

Lemma slice_panic_iff {A} (f : list A) lo hi :
  slice f lo hi = Panic <-> ~ (0 <= lo <= hi /\ hi <= zlen f).
Proof.
  rewrite <- slice_ok_iff. split.
  - intros E [x H]. congruence.
  - intros H. unfold slice in *. destruct (_ && _); auto. destruct H; eauto.
Qed.

Lemma at_noerr {A} (f : list A) i e : at_ f i <> Err e.
Proof. unfold at_; destruct (_ && _); [destruct (nth_error _ _)|]; discriminate. Qed.

Lemma get_be_app_r n x f lo hi : zlen x <= lo ->
  get_be n (x ++ f) lo hi = get_be n f (lo - zlen x) (hi - zlen x).
Proof. intros; unfold get_be; rewrite slice_app_r; auto. Qed.

Lemma get_be_here n x f hi : hi = zlen x -> zlen x = Z.of_nat n ->
  get_be n (x ++ f) 0 hi = Ok (unbe x).
Proof.
  intros. unfold get_be. rewrite slice_app_l by auto. cbn [bind].
  replace (Z.of_nat n <=? zlen x) with true by lia.
  rewrite firstn_all2; [reflexivity| unfold zlen in *; lia].
Qed.

(** *** Writing into a zeroed frame, left to right *)

Lemma splice_at_end w src k :
  (length src <= k)%nat ->
  splice (w ++ repeat 0 k) (zlen w) src = w ++ src ++ repeat 0 (k - length src).
Proof.
  intros H. unfold splice. replace (Z.to_nat (zlen w)) with (length w) by (unfold zlen; lia).
  rewrite firstn_app, firstn_all, Nat.sub_diag, firstn_O, app_nil_r. f_equal. f_equal.
  rewrite skipn_app, skipn_all2 by lia. cbn [app].
  replace (length w + length src - length w)%nat with (length src) by lia.
  replace k with (length src + (k - length src))%nat at 1 by lia.
  rewrite repeat_app, skipn_app, repeat_length, Nat.sub_diag.
  rewrite skipn_all2 by (rewrite repeat_length; lia). reflexivity.
Qed.

Lemma copy_at_end w n lo hi src : lo = zlen w -> lo <= hi -> hi - lo <= Z.of_nat n ->
  copy_at (w ++ repeat 0 n) lo hi src
  = Ok ((w ++ fit (Z.to_nat (hi - lo)) src) ++ repeat 0 (n - Z.to_nat (hi - lo))).
Proof.
  intros -> H1 H2. unfold copy_at. rewrite zlen_app, zlen_repeat. pose proof (zlen_nonneg w).
  replace (_ && _ && _) with true by lia. f_equal.
  rewrite splice_at_end by (rewrite firstn_length; lia).
  unfold fit. rewrite <- !app_assoc. do 2 f_equal.
  rewrite firstn_length, <- repeat_app. f_equal. lia.
Qed.

Lemma set_at_end w n i b : i = zlen w -> (1 <= n)%nat ->
  set_at (w ++ repeat 0 n) i b = Ok ((w ++ [b]) ++ repeat 0 (n - 1)).
Proof.
  intros -> H. unfold set_at. rewrite zlen_app, zlen_repeat. pose proof (zlen_nonneg w).
  replace (_ && _) with true by lia.
  rewrite splice_at_end by (cbn; lia). rewrite <- app_assoc. reflexivity.
Qed.

Lemma put_be_end k w n lo hi v : lo = zlen w -> hi - lo = Z.of_nat k -> (k <= n)%nat ->
  put_be k (w ++ repeat 0 n) lo hi v = Ok ((w ++ be k v) ++ repeat 0 (n - k)).
Proof.
  intros -> H1 H2. unfold put_be. rewrite zlen_app, zlen_repeat. pose proof (zlen_nonneg w).
  replace (_ && _ && _ && _) with true by lia.
  rewrite splice_at_end by (rewrite length_be; lia).
  rewrite length_be, <- app_assoc. reflexivity.
Qed.

Lemma fit_exact w s : length s = w -> fit w s = s.
Proof.
  intros <-. unfold fit. rewrite firstn_all, Nat.sub_diag, app_nil_r. reflexivity.
Qed.

Lemma fit_short w s : (length s <= w)%nat -> fit w s = s ++ repeat 0 (w - length s).
Proof. intros. unfold fit. rewrite firstn_all2; auto. Qed.

Lemma bind_ok {A B} (x : res A) (f : A -> res B) y :
  bind x f = Ok y -> exists a, x = Ok a /\ f a = Ok y.
Proof. destruct x; cbn; intros; try discriminate; eauto. Qed.
