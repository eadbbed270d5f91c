(** * PropMongo: property C125 (the credentials of the database). *)
From Coq Require Import String.
From Verif Require Import Base.
From Verif Require LogModel.
Local Notation "'txt' s" := (LogModel.ascii_bytes s%string) (at level 9, s at level 8).

(** ** Model *)
(** strings.ReplaceAll(s, old, new) for an old that is not empty: occurrences from the left, without overlap;
    [skip]: bytes of an occurrence still to be passed over. *)
Fixpoint starts (t s : bytes) : bool :=
  match t, s with [], _ => true | x :: t', y :: s' => (x =? y) && starts t' s' | _, [] => false end.
Fixpoint replace_from (old new : bytes) (skip : nat) (s : bytes) : bytes :=
  match s with
  | [] => []
  | c :: r =>
    match skip with
    | S k => replace_from old new k r
    | O => if starts old s then new ++ replace_from old new (pred (length old)) r else c :: replace_from old new 0 r
    end
  end.
Definition ReplaceAll (s old new : bytes) : bytes := replace_from old new 0 s.
(** What a start of the database connection did: the address given to the driver, the lines logged, whether it ended
    with a connection. *)
Record dial := Dial { d_uri : option bytes; d_lines : list bytes; d_up : bool }.
(** database/mongodb/mongo.go:37-75 setConnect.  [user], [passwd]: the environment; [uri]: the setting; [driver]: the
    error of Connect or Ping for an address, or none (what they do beside is not modelled). *)
Definition setConnect (user passwd uri : bytes) (driver : bytes -> option bytes) : dial :=
  if match user with [] => true | _ => false end || match passwd with [] => true | _ => false end then
    Dial None [txt "Environment variable MONGO_USER or MONGO_PASSWD not set!"] false
  else
    let uri := ReplaceAll uri (txt "<user>") user in
    let uri := ReplaceAll uri (txt "<passwd>") passwd in
    match driver uri with
    | Some e => Dial (Some uri) [e] false
    | None => Dial (Some uri) [txt "Connected to " ++ uri] true
    end.

(** ** Specification *)
(** A setting with places for the two credentials. *)
Inductive piece := Fixed (b : bytes) | User | Secret.
Definition written (p : piece) : bytes := match p with Fixed b => b | User => txt "<user>" | Secret => txt "<passwd>" end.
Definition meant (user passwd : bytes) (p : piece) : bytes := match p with Fixed b => b | User => user | Secret => passwd end.
Definition less_than_sign : Z := 60.
Definition plain (b : bytes) : Prop := ~ In less_than_sign b.
Definition plain_piece (p : piece) : Prop := match p with Fixed b => plain b | _ => True end.
Definition part_of (a s : bytes) : Prop := exists x y, s = x ++ a ++ y.

(** ** Proofs *)
Lemma starts_app t s : starts t (t ++ s) = true.
Proof. induction t as [|x t IH]; [reflexivity|]. cbn. rewrite Z.eqb_refl. exact IH. Qed.
Lemma replace_skip old new : forall a s, replace_from old new (length a) (a ++ s) = replace_from old new 0 s.
Proof. induction a as [|c a IH]; intros s; [reflexivity|]. cbn. apply IH. Qed.
Lemma replace_plain o old new : forall b s, ~ In o b -> replace_from (o :: old) new 0 (b ++ s) = b ++ replace_from (o :: old) new 0 s.
Proof.
  induction b as [|c b IH]; intros s H; [reflexivity|]. cbn [app replace_from starts].
  destruct (Z.eqb_spec o c) as [->|_]; [contradiction H; left; reflexivity|]. cbn [andb]. rewrite IH; [reflexivity|]. intros I. apply H. right. exact I.
Qed.
Lemma replace_here o old new s : replace_from (o :: old) new 0 ((o :: old) ++ s) = new ++ replace_from (o :: old) new 0 s.
Proof. cbn [app replace_from]. rewrite (starts_app (o :: old) s : starts (o :: old) (o :: old ++ s) = true). cbn [length pred]. rewrite replace_skip. reflexivity. Qed.
Lemma replace_user new s : replace_from (txt "<user>") new 0 (txt "<passwd>" ++ s) = txt "<passwd>" ++ replace_from (txt "<user>") new 0 s.
Proof. reflexivity. Qed.
Lemma first_pass user : forall ps, Forall plain_piece ps ->
  replace_from (txt "<user>") user 0 (concat (map written ps)) = concat (map (fun p => match p with User => user | _ => written p end) ps).
Proof.
  induction ps as [|p ps IH]; intros H; [reflexivity|]. inversion H as [|? ? H1 H2]; subst. cbn [map concat]. rewrite <- (IH H2). destruct p as [b| |]; cbn [written].
  - exact (replace_plain 60 _ user b _ H1).
  - exact (replace_here 60 _ user _).
  - apply replace_user.
Qed.
Lemma second_pass user passwd : plain user -> forall ps, Forall plain_piece ps ->
  replace_from (txt "<passwd>") passwd 0 (concat (map (fun p => match p with User => user | _ => written p end) ps)) = concat (map (meant user passwd) ps).
Proof.
  intros U. induction ps as [|p ps IH]; intros H; [reflexivity|]. inversion H as [|? ? H1 H2]; subst. cbn [map concat]. rewrite <- (IH H2). destruct p as [b| |]; cbn [written meant].
  - exact (replace_plain 60 _ passwd b _ H1).
  - exact (replace_plain 60 _ passwd user _ U).
  - exact (replace_here 60 _ passwd _).
Qed.
Lemma replace_shows old new : forall a b, exists x y, replace_from old new 0 (a ++ old ++ b) = x ++ new ++ y \/ old = [].
Proof.
  destruct old as [|o old]; [intros; exists [], []; right; reflexivity|].
  induction a as [|c a IH]; intros b.
  - exists []. eexists. left. apply replace_here.
  - cbn [app replace_from]. destruct (starts (o :: old) (c :: a ++ o :: old ++ b)) eqn:E.
    + exists []. eexists. left. reflexivity.
    + destruct (IH b) as (x & y & [R|R]); [|discriminate R]. exists (c :: x), y. left. cbn [app]. f_equal. exact R.
Qed.
Lemma replace_none old new : old <> [] -> forall s, ~ part_of old s -> replace_from old new 0 s = s.
Proof.
  intros N. induction s as [|c s IH]; intros H; [reflexivity|]. cbn [replace_from]. destruct (starts old (c :: s)) eqn:E.
  - exfalso. apply H. exists []. cbn [app]. revert E. generalize (c :: s). clear. intros l. revert l. induction old as [|o old IH]; intros l E; [exists l; reflexivity|].
    destruct l as [|x l]; [discriminate E|]. cbn in E. apply andb_true_iff in E as [E1 E2]. apply Z.eqb_eq in E1. subst x. destruct (IH l E2) as [y ->]. exists y. reflexivity.
  - f_equal. apply IH. intros (x & y & E'). apply H. exists (c :: x), y. rewrite E'. reflexivity.
Qed.
(** The driver is given the setting with each place filled, whatever the password contains; with a credential missing
    no connection is tried and the process ends with a line that depends on neither. *)
Theorem C125_uri_partial : forall user passwd ps driver, Forall plain_piece ps -> plain user ->
  let d := setConnect user passwd (concat (map written ps)) driver in
  (user <> [] -> passwd <> [] -> d_uri d = Some (concat (map (meant user passwd) ps)) /\
     (d_up d = true <-> driver (concat (map (meant user passwd) ps)) = None)) /\
  (user = [] \/ passwd = [] -> d = Dial None [txt "Environment variable MONGO_USER or MONGO_PASSWD not set!"] false).
Proof.
  intros user passwd ps driver P U d. split.
  - intros N1 N2. unfold d, setConnect. destruct user as [|u0 user]; [contradiction N1; reflexivity|]. destruct passwd as [|p0 passwd]; [contradiction N2; reflexivity|]. cbn [orb].
    unfold ReplaceAll. rewrite first_pass by exact P. rewrite second_pass by assumption.
    destruct (driver (concat (map (meant (u0 :: user) (p0 :: passwd)) ps))); cbn [d_uri d_up]; split; try reflexivity; split; congruence.
  - intros [->| ->]; unfold d, setConnect; [reflexivity|]. destruct user; reflexivity.
Qed.
(** Refuted: every connection made with a setting that has a place for the password writes the password into the log. *)
Theorem C125_refuted : forall user passwd uri driver,
  let d := setConnect user passwd uri driver in
  d_up d = true -> part_of (txt "<passwd>") (ReplaceAll uri (txt "<user>") user) ->
  exists line, In line (d_lines d) /\ part_of passwd line.
Proof.
  intros user passwd uri driver d Up (a & b & E). unfold d, setConnect in *. destruct user as [|u0 user]; [discriminate Up|]. destruct passwd as [|p0 passwd]; [discriminate Up|]. cbn [orb] in *.
  rewrite E in *. destruct (replace_shows (txt "<passwd>") (p0 :: passwd) a b) as (x & y & [R|R]); [|discriminate R]. unfold ReplaceAll in *.
  rewrite R in *. destruct (driver (x ++ (p0 :: passwd) ++ y)); [discriminate Up|]. cbn [d_lines]. eexists. split; [left; reflexivity|].
  exists (txt "Connected to " ++ x), y. rewrite app_assoc. reflexivity.
Qed.
Theorem C125_refuted_places : forall user passwd ps driver, Forall plain_piece ps -> plain user -> In Secret ps -> user <> [] -> passwd <> [] ->
  driver (concat (map (meant user passwd) ps)) = None ->
  d_lines (setConnect user passwd (concat (map written ps)) driver) = [txt "Connected to " ++ concat (map (meant user passwd) ps)] /\
  part_of passwd (concat (map (meant user passwd) ps)).
Proof.
  intros user passwd ps driver P U I N1 N2 D. split.
  - unfold setConnect. destruct user as [|u0 user]; [contradiction N1; reflexivity|]. destruct passwd as [|p0 passwd]; [contradiction N2; reflexivity|]. cbn [orb].
    unfold ReplaceAll. rewrite first_pass by exact P. rewrite second_pass by assumption. rewrite D. reflexivity.
  - apply in_split in I as (l1 & l2 & ->). rewrite map_app, concat_app. exists (concat (map (meant user passwd) l1)), (concat (map (meant user passwd) l2)). reflexivity.
Qed.
(** Refuted: the places are filled one after the other, so a user name with the password's place in it is changed. *)
Theorem C125_refuted_name : forall a b passwd driver, plain a -> plain b -> passwd <> [] ->
  d_uri (setConnect (a ++ txt "<passwd>" ++ b) passwd (txt "<user>") driver) = Some (a ++ passwd ++ b).
Proof.
  intros a b passwd driver A B N. unfold setConnect.
  assert (X : match a ++ txt "<passwd>" ++ b with [] => true | _ => false end = false) by (destruct a; reflexivity). rewrite X. destruct passwd as [|p0 passwd]; [contradiction N; reflexivity|]. cbn [orb].
  assert (E : ReplaceAll (txt "<user>") (txt "<user>") (a ++ txt "<passwd>" ++ b) = a ++ txt "<passwd>" ++ b).
  { unfold ReplaceAll. rewrite <- (app_nil_r (txt "<user>")) at 2. etransitivity; [exact (replace_here 60 _ (a ++ txt "<passwd>" ++ b) [])|]. cbn [replace_from]. apply app_nil_r. }
  rewrite E.
  assert (F : ReplaceAll (a ++ txt "<passwd>" ++ b) (txt "<passwd>") (p0 :: passwd) = a ++ (p0 :: passwd) ++ b).
  { unfold ReplaceAll. etransitivity; [exact (replace_plain 60 _ (p0 :: passwd) a _ A)|]. f_equal. etransitivity; [exact (replace_here 60 _ (p0 :: passwd) b)|]. f_equal.
    rewrite <- (app_nil_r b) at 1. etransitivity; [exact (replace_plain 60 _ (p0 :: passwd) b [] B)|]. cbn [replace_from]. apply app_nil_r. }
  rewrite F. destruct (driver (a ++ (p0 :: passwd) ++ b)); reflexivity.
Qed.
(** Without a place for the password nothing depends on it; and a connection that fails logs the driver's words only. *)
Theorem C125_partial : forall user passwd passwd' uri driver, passwd <> [] -> passwd' <> [] ->
  (~ part_of (txt "<passwd>") (ReplaceAll uri (txt "<user>") user) -> setConnect user passwd uri driver = setConnect user passwd' uri driver) /\
  (forall e, (forall u, driver u = Some e) -> d_lines (setConnect user passwd uri driver) = d_lines (setConnect user passwd' uri driver)).
Proof.
  intros user passwd passwd' uri driver N N'. split.
  - intros H. unfold setConnect. destruct passwd as [|p0 passwd]; [contradiction N; reflexivity|]. destruct passwd' as [|p1 passwd']; [contradiction N'; reflexivity|].
    destruct user as [|u0 user]; [reflexivity|]. cbn [orb]. set (u := ReplaceAll uri (txt "<user>") (u0 :: user)) in *. unfold ReplaceAll. rewrite !replace_none by (discriminate || exact H). reflexivity.
  - intros e H. unfold setConnect. destruct passwd as [|p0 passwd]; [contradiction N; reflexivity|]. destruct passwd' as [|p1 passwd']; [contradiction N'; reflexivity|].
    destruct user as [|u0 user]; [reflexivity|]. cbn [orb]. rewrite !H. reflexivity.
Qed.
(** The shipped setting (msc_client/config/config.yaml:16). *)
Example C125_case : let ps := [Fixed (txt "mongodb+srv://"); User; Fixed (txt ":"); Secret; Fixed (txt "@cluster0.ppiyq4w.mongodb.net/test")] in
  concat (map written ps) = txt "mongodb+srv://<user>:<passwd>@cluster0.ppiyq4w.mongodb.net/test" /\ Forall plain_piece ps /\ plain (txt "bob") /\
  setConnect (txt "bob") (txt "<user>7") (concat (map written ps)) (fun _ => None) =
    Dial (Some (txt "mongodb+srv://bob:<user>7@cluster0.ppiyq4w.mongodb.net/test")) [txt "Connected to mongodb+srv://bob:<user>7@cluster0.ppiyq4w.mongodb.net/test"] true.
Proof.
  cbv zeta. split; [reflexivity|]. split; [repeat (constructor; [vm_compute; intuition discriminate|]); constructor|]. split; [vm_compute; intuition discriminate|]. vm_compute. reflexivity.
Qed.
Print Assumptions C125_uri_partial.
Print Assumptions C125_refuted.
Print Assumptions C125_refuted_places.
Print Assumptions C125_refuted_name.
Print Assumptions C125_partial.
