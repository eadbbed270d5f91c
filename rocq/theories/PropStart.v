(** * PropStart: C99 (each log file follows its own settings), C100 (where a process looks for its files). *)
From Coq Require Import String.
From Verif Require Import Base LogModel StartModel.

(** ** Specification *)
(** The setting [item] of the log file [name]. *)
Definition key (name item : string) : string := append "Logs." (append name (append "." item)).
(** A configuration with one whole number written anew. *)
Definition set_int (c : conf) (k : string) (v : Z) : conf :=
  Conf (c_str c) (fun x => if String.eqb x k then v else c_int c x) (c_bool c).
(** A log file set up with the settings of the section [name]; [ds], [di] for what is not set. *)
Definition all_but_level (base : bytes) (c : conf) (name : string) (ds : string -> bytes) (di : string -> Z) (t : tee) : Prop :=
  let text item := match c_str c (key name item) with [] => ds item | s => s end in
  let num item := match c_int c (key name item) with 0 => di item | n => n end in
  t_file t = app base (text "LogName"%string) /\ t_format t = text "TextFormat"%string /\ t_precision t = text "TimePrecision"%string /\
  t_size t = num "MaxSize"%string /\ t_age t = num "MaxAge"%string /\ t_backups t = num "MaxBackups"%string /\ t_compress t = c_bool c (key name "Compress").
Definition own (lvl : Z -> Z) (base : bytes) (c : conf) (name : string) (ds : string -> bytes) (di : string -> Z) (t : tee) : Prop :=
  all_but_level base c name ds di t /\ t_level t = lvl (c_int c (key name "Level")).
(** What the custom log's settings are where nothing is set. *)
Definition custom_text (name item : string) : bytes :=
  if String.eqb item "LogName" then ascii_bytes (append "logs/" (append name ".log")) else if String.eqb item "TextFormat" then ascii_bytes "json" else ascii_bytes "millisecond".
Definition custom_num (item : string) : Z := if String.eqb item "MaxSize" then 10 else if String.eqb item "MaxAge" then 14 else 100.
(** [p] occurs in [s] behind [pre]. *)
Definition occurs (p s pre : bytes) : Prop := exists post, s = pre ++ p ++ post.
(** The process runs as a test: its first argument begins with -test. *)
Definition as_test (args : list bytes) : Prop := exists a0 a1 rest tl, args = a0 :: a1 :: rest /\ a1 = [45;116;101;115;116] ++ tl.

(** ** C99 *)
Lemma same_text (s : bytes) : s = match s with [] => [] | x :: l => x :: l end. Proof. destruct s; reflexivity. Qed.
Lemma same_num (n : Z) : n = match n with 0 => 0 | Zpos p => Zpos p | Zneg p => Zneg p end. Proof. destruct n; reflexivity. Qed.
Lemma else_text (s d : bytes) : (if zlen s =? 0 then d else s) = match s with [] => d | x :: l => x :: l end.
Proof. destruct s as [|x s]; [reflexivity|]. replace (zlen (x :: s) =? 0) with false; [reflexivity|]. symmetry. apply Z.eqb_neq. unfold zlen. cbn [length]. lia. Qed.
Lemma else_num (n d : Z) : (if n =? 0 then d else n) = match n with 0 => d | Zpos p => Zpos p | Zneg p => Zneg p end. Proof. destruct n; reflexivity. Qed.
(** The server's two log files are set up with the settings of their own sections. *)
Theorem C99_server : forall lvl base c, exists d e, logInit_server lvl base c = [d; e] /\
  own lvl base c "Default" (fun _ => []) (fun _ => 0) d /\ own lvl base c "Error" (fun _ => []) (fun _ => 0) e.
Proof.
  intros lvl base c. unfold logInit_server. eexists. eexists. split; [reflexivity|].
  split; (split; [|reflexivity]); unfold all_but_level; cbv zeta; cbn [t_file t_format t_precision t_size t_age t_backups t_compress t_level];
    (split; [f_equal; exact (same_text _)|]); (split; [exact (same_text _)|]); (split; [exact (same_text _)|]); (split; [exact (same_num _)|]); (split; [exact (same_num _)|]); (split; [exact (same_num _)|]); reflexivity.
Qed.
(** So are the client's, but for the level of the second: it is that of its own section exactly if the
    two levels are the same. *)
Theorem C99_client_partial : forall lvl base c, exists d e, logInit_client lvl base c = [d; e] /\
  own lvl base c "Default" (fun _ => []) (fun _ => 0) d /\ all_but_level base c "Error" (fun _ => []) (fun _ => 0) e /\
  (own lvl base c "Error" (fun _ => []) (fun _ => 0) e <-> lvl (c_int c (key "Error" "Level")) = lvl (c_int c (key "Default" "Level"))).
Proof.
  intros lvl base c. unfold logInit_client. eexists. eexists. split; [reflexivity|].
  match goal with |- _ /\ ?A /\ (own _ _ _ _ _ _ ?e <-> ?B) => assert (X : A) end.
  { unfold all_but_level; cbv zeta; cbn [t_file t_format t_precision t_size t_age t_backups t_compress t_level].
    (split; [f_equal; exact (same_text _)|]); (split; [exact (same_text _)|]); (split; [exact (same_text _)|]); (split; [exact (same_num _)|]); (split; [exact (same_num _)|]); (split; [exact (same_num _)|]); reflexivity. }
  split; [|split; [exact X|]].
  - split; [|reflexivity]. unfold all_but_level; cbv zeta; cbn [t_file t_format t_precision t_size t_age t_backups t_compress t_level].
    (split; [f_equal; exact (same_text _)|]); (split; [exact (same_text _)|]); (split; [exact (same_text _)|]); (split; [exact (same_num _)|]); (split; [exact (same_num _)|]); (split; [exact (same_num _)|]); reflexivity.
  - unfold own. cbn [t_level]. split; [intros [_ H]; symmetry; exact H|intros H; split; [exact X|symmetry; exact H]].
Qed.
(** Whatever level is set for the client's error log, the log files are the same. *)
Theorem C99_refuted_client : forall lvl base c v, logInit_client lvl base (set_int c (key "Error" "Level") v) = logInit_client lvl base c.
Proof. intros. reflexivity. Qed.
Lemma append_inv (a b c : string) : append a b = append a c -> b = c.
Proof. induction a as [|x a IH]; cbn [append]; intros E; [exact E|]. injection E as E. exact (IH E). Qed.
Lemma key_eq n i j : String.eqb (key n i) (key n j) = String.eqb i j.
Proof.
  destruct (String.eqb_spec i j) as [->|N]; [apply String.eqb_refl|]. apply String.eqb_neq. intros E. apply N. unfold key in E.
  apply append_inv, append_inv, append_inv in E. exact E.
Qed.
Lemma append_length (a b : string) : String.length (append a b) = (String.length a + String.length b)%nat.
Proof. induction a as [|x a IH]; cbn [append String.length]; [reflexivity|]. rewrite IH. reflexivity. Qed.
Lemma key_off n : String.eqb (append "Logs" (append n "Level")) (key n "Level") = false.
Proof. apply String.eqb_neq. intros E. apply (f_equal String.length) in E. unfold key in E. rewrite !append_length in E. cbn [String.length] in E. lia. Qed.
(** Whatever level is set for a custom log, the log file is the same. *)
Theorem C99_refuted_custom : forall lvl base c name v, log_New lvl base (set_int c (key name "Level") v) name = log_New lvl base c name.
Proof.
  intros lvl base c name v. unfold log_New. change (append "Logs." (append name ".MaxSize")) with (key name "MaxSize").
  change (append "Logs." (append name ".MaxBackups")) with (key name "MaxBackups"). change (append "Logs." (append name ".MaxAge")) with (key name "MaxAge").
  unfold set_int. cbn [c_str c_int c_bool]. rewrite !key_eq, key_off. reflexivity.
Qed.
(** Every other setting of a custom log is that of its section, and the documented one where the
    section sets none. *)
Theorem C99_custom_partial : forall lvl base c name, all_but_level base c name (custom_text name) custom_num (log_New lvl base c name).
Proof.
  intros lvl base c name. unfold all_but_level, log_New. cbv zeta. cbn [t_file t_format t_precision t_size t_age t_backups t_compress]. rewrite !else_text, !else_num. repeat split.
Qed.

(** ** C100 *)
Lemma starts_spec s p : starts s p = true <-> exists post, s = p ++ post.
Proof.
  revert s. induction p as [|x p IH]; intros s; [destruct s; (split; [intros _; eexists; reflexivity|reflexivity])|].
  destruct s as [|y s]; [split; [discriminate|intros [post E]; discriminate E]|]. cbn [starts]; rewrite andb_true_iff, IH, Z.eqb_eq. split.
  - intros [-> [post ->]]. exists post. reflexivity.
  - intros [post E]. cbn [app] in E. injection E as -> ->. split; [reflexivity|exists post; reflexivity].
Qed.
Lemma Index_some s p i : Index s p = Some i -> occurs p s (firstn i s) /\ (i <= length s)%nat /\ forall pre, occurs p s pre -> (i <= length pre)%nat.
Proof.
  revert i. induction s as [|x s IH]; intros i; cbn [Index].
  - destruct (starts [] p) eqn:E; [|discriminate]. intros H. injection H as <-. apply starts_spec in E as [post E]. split; [exists post; exact E|]. split; [reflexivity|]. intros pre _. lia.
  - destruct (starts (x :: s) p) eqn:E.
    + intros H. injection H as <-. apply starts_spec in E as [post E]. split; [exists post; exact E|]. split; [lia|]. intros pre _. lia.
    + destruct (Index s p) as [j|] eqn:F; [|discriminate]. cbn [option_map]. intros H. injection H as <-. destruct (IH j eq_refl) as ([post A] & B & C). split; [|split].
      * exists post. cbn [firstn app]. rewrite <- A. reflexivity.
      * cbn [length]. lia.
      * intros [|y pre] [q Q]; [|]. { exfalso. assert (X : starts (x :: s) p = true) by (apply starts_spec; exists q; exact Q). congruence. }
        cbn [app] in Q. injection Q as _ Q. cbn [length]. specialize (C pre (ex_intro _ q Q)). lia.
Qed.
Lemma Index_none s p : Index s p = None -> forall pre, ~ occurs p s pre.
Proof.
  induction s as [|x s IH]; cbn [Index]; destruct (starts _ p) eqn:E; try discriminate.
  - intros _ pre [post Q]. symmetry in Q. apply app_eq_nil in Q as [-> Q]. assert (X : starts [] p = true) by (apply starts_spec; exists post; symmetry; exact Q). congruence.
  - destruct (Index s p) eqn:F; [discriminate|]. intros _ [|y pre] [post Q].
    + assert (X : starts (x :: s) p = true) by (apply starts_spec; exists post; exact Q). congruence.
    + cbn [app] in Q. injection Q as _ Q. apply (IH eq_refl pre). exists post. exact Q.
Qed.
Lemma test_true args : as_test args <-> match args with _ :: a :: _ => starts a (ascii_bytes "-test") | _ => false end = true.
Proof.
  unfold as_test. split.
  - intros (a0 & a1 & rest & tl & -> & ->). apply starts_spec. exists tl. reflexivity.
  - destruct args as [|a0 [|a1 rest]]; try discriminate. intros H. apply starts_spec in H as [tl H]. exists a0, a1, rest, tl. split; [reflexivity|exact H].
Qed.
(** Started normally, a process takes the directory it runs in, and none if there is none. *)
Theorem C100_normal : forall project args cwd, ~ as_test args -> setBasePath project args cwd = option_map (fun d => d ++ [47]) cwd.
Proof.
  intros project args [cwd|] N; [|reflexivity]. unfold setBasePath. rewrite test_true in N. apply not_true_is_false in N. rewrite N, andb_false_r. reflexivity.
Qed.
(** As a test it takes the project's directory [root]/[project] above (or at) the one it runs in,
    provided that is where the name occurs first in the path. *)
Theorem C100_test_partial : forall project args root below, as_test args -> project <> [] ->
  let cwd := root ++ [47] ++ project ++ below in
  (forall pre, occurs project cwd pre -> (length root < length pre)%nat) ->
  setBasePath project args (Some cwd) = Some (root ++ [47] ++ project ++ [47]).
Proof.
  intros project args root below T NP cwd F. unfold setBasePath. apply test_true in T. rewrite T.
  assert (L : zlen project < zlen cwd) by (unfold cwd, zlen; rewrite !app_length; cbn [length]; lia).
  assert (P : zlen project <> 0) by (destruct project; [congruence|unfold zlen; cbn [length]; lia]).
  replace (zlen project =? 0) with false by lia. replace (zlen project <? zlen cwd) with true by lia. cbn [negb andb].
  assert (O : occurs project cwd (root ++ [47])) by (exists below; unfold cwd; rewrite <- !app_assoc; reflexivity).
  destruct (Index cwd project) as [i|] eqn:I1; [|destruct (Index_none _ _ I1 _ O)].
  destruct (Index_some _ _ _ I1) as (A & B & C). specialize (C _ O). specialize (F _ A). rewrite firstn_length_le in F by exact B. rewrite app_length in C. cbn [length] in C.
  assert (i = S (length root)) by lia. subst i. f_equal. unfold cwd. change (root ++ [47] ++ project ++ below) with (root ++ ([47] ++ project ++ below)).
  rewrite firstn_app, firstn_all2 by lia. replace (S (length root) - length root)%nat with 1%nat by lia. cbn [firstn app]. rewrite <- !app_assoc. reflexivity.
Qed.
(** Where the name occurs further up in the path, behind at least one letter, as a directory's name
    or as a part of one, the base path is cut there: it is shorter than the project's directory. *)
Theorem C100_refuted : forall project args root below pre, as_test args -> project <> [] ->
  let cwd := root ++ [47] ++ project ++ below in
  occurs project cwd pre -> (0 < length pre <= length root)%nat ->
  exists base, setBasePath project args (Some cwd) = Some base /\ zlen base < zlen (root ++ [47] ++ project ++ [47]).
Proof.
  intros project args root below pre T NP cwd O L. unfold setBasePath. apply test_true in T. rewrite T. eexists. split; [reflexivity|].
  assert (L1 : zlen project < zlen cwd) by (unfold cwd, zlen; rewrite !app_length; cbn [length]; lia).
  assert (P : zlen project <> 0) by (destruct project; [congruence|unfold zlen; cbn [length]; lia]).
  replace (zlen project =? 0) with false by lia. replace (zlen project <? zlen cwd) with true by lia. cbn [negb andb].
  destruct (Index cwd project) as [[|i]|] eqn:I1; [unfold zlen; rewrite !app_length; cbn [length ascii_bytes]; lia| |destruct (Index_none _ _ I1 _ O)].
  destruct (Index_some _ _ _ I1) as (A & B & C). specialize (C _ O). unfold zlen. rewrite !app_length, firstn_length_le by exact B. cbn [length ascii_bytes]. lia.
Qed.
(** And in a path without the name (or with it only at the very start), longer than the name, the files
    are looked for in the root directory. *)
Theorem C100_refuted_root : forall project args cwd, as_test args -> project <> [] -> zlen project < zlen cwd ->
  (forall pre, occurs project cwd pre -> pre = []) -> setBasePath project args (Some cwd) = Some [47].
Proof.
  intros project args cwd T NP L F. unfold setBasePath. apply test_true in T. rewrite T.
  assert (P : zlen project <> 0) by (destruct project; [congruence|unfold zlen; cbn [length]; lia]).
  replace (zlen project =? 0) with false by lia. replace (zlen project <? zlen cwd) with true by lia. cbn [negb andb].
  destruct (Index cwd project) as [[|i]|] eqn:I1; try reflexivity. exfalso. destruct (Index_some _ _ _ I1) as (A & B & _). apply F in A. apply (f_equal (@length _)) in A. rewrite firstn_length_le in A by exact B. discriminate A.
Qed.

(** ** Cases *)
Definition st_conf : conf := Conf (fun k => if String.eqb k "Logs.Default.LogName" then ascii_bytes "logs/all.log" else if String.eqb k "Logs.Error.LogName" then ascii_bytes "logs/err.log" else [])
  (fun k => if String.eqb k "Logs.Error.Level" then 2 else if String.eqb k "Logs.CounterDB.Level" then 1 else if String.eqb k "Logs.Default.MaxSize" then 7 else 0) (fun _ => true).
Example C99_case : map t_level (logInit_server (fun z => z) (ascii_bytes "/x/") st_conf) = [0; 2] /\ map t_level (logInit_client (fun z => z) (ascii_bytes "/x/") st_conf) = [0; 0] /\
  map t_file (logInit_client (fun z => z) (ascii_bytes "/x/") st_conf) = [ascii_bytes "/x/logs/all.log"; ascii_bytes "/x/logs/err.log"] /\
  log_New (fun z => z) (ascii_bytes "/x/") st_conf "CounterDB" = Tee (ascii_bytes "/x/logs/CounterDB.log") (ascii_bytes "json") (ascii_bytes "millisecond") 10 14 100 true 0.
Proof. vm_compute. repeat split. Qed.
Example C100_case :
  let go := setBasePath (ascii_bytes "msc_server") [ascii_bytes "x.test"; ascii_bytes "-test.v"] in
  setBasePath (ascii_bytes "msc_server") [ascii_bytes "gosmc"] (Some (ascii_bytes "/opt/msc_server/cmd")) = Some (ascii_bytes "/opt/msc_server/cmd/") /\
  go (Some (ascii_bytes "/go/msc_server/test")) = Some (ascii_bytes "/go/msc_server/") /\
  go (Some (ascii_bytes "/msc_server.old/msc_server/test")) = Some (ascii_bytes "/msc_server/") /\
  go (Some (ascii_bytes "/home/u/gosms/auth_test")) = Some (ascii_bytes "/").
Proof. vm_compute. repeat split. Qed.
Print Assumptions C99_server.
Print Assumptions C99_client_partial.
Print Assumptions C99_refuted_client.
Print Assumptions C99_refuted_custom.
Print Assumptions C99_custom_partial.
Print Assumptions C100_normal.
Print Assumptions C100_test_partial.
Print Assumptions C100_refuted.
Print Assumptions C100_refuted_root.
