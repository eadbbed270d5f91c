(** * SpecWire: field tables of binary packets, independent of the models.
    A packet is described as a list of fields; [render] gives its bytes. *)
From Verif Require Import Base.

Inductive field :=
| U (n : nat) (v : Z)        (* unsigned integer, n bytes, big endian *)
| T (w : nat) (s : bytes)    (* text of width w: cut at w, padded with NULs *)
| R (b : bytes).             (* raw bytes *)

Definition render1 (f : field) : bytes :=
  match f with
  | U n v => be n v
  | T w s => fit w s
  | R b => b
  end.
Definition render (l : list field) : bytes := concat (map render1 l).

Definition width (f : field) : Z :=
  match f with
  | U n _ => Z.of_nat n
  | T w _ => Z.of_nat w
  | R b => zlen b
  end.
Fixpoint widths (l : list field) : Z :=
  match l with [] => 0 | f :: r => width f + widths r end.

Lemma zlen_render1 f : zlen (render1 f) = width f.
Proof. destruct f; cbn [render1 width]; autorewrite with zlen; reflexivity. Qed.
Lemma zlen_render l : zlen (render l) = widths l.
Proof.
  unfold render. induction l as [|f l IH]; cbn [map concat widths]; [reflexivity|].
  rewrite zlen_app, zlen_render1, IH. reflexivity.
Qed.

(** Text that survives a field of width [w]: no NUL, not too long. *)
Definition fits (w : nat) (s : bytes) : Prop := ~ In 0 s /\ (length s <= w)%nat.

(** The three protocols' first 12 bytes: total length, command, sequence. *)
Definition head (len cmd seq : Z) : list field := [U 4 len; U 4 cmd; U 4 seq].
