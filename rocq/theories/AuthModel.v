(** * AuthModel: the credential stores (auth/) and the copy handed out (utils.StructCopy,
    FindAuthConf of client and server).

    Left out: logging, locking (each store's map is used under its lock; see PropDesk), the reload ticker (a
    reload is a call of Load).  Reading a directory or a file and YAML/BSON decoding are the
    environment: a file comes with its decoded content, None if it does not decode.  A file or
    directory that cannot be read ends the process (log.Fatalf): see MainModel.yaml_scan.
    Simplification: strings.ToLower on bytes, only A-Z change (exact for ASCII). *)
From Coq Require Import String Ascii.
From Verif Require Import Base OptionsModel ClientModel.
Local Open Scope string_scope. Local Open Scope list_scope. Local Open Scope Z_scope.

Fixpoint btext (s : string) : bytes := match s with EmptyString => [] | String c r => Z.of_nat (nat_of_ascii c) :: btext r end.
Definition low (c : Z) : Z := if (65 <=? c) && (c <=? 90) then c + 32 else c.
Definition ToLower (s : bytes) : bytes := map low s.
Definition HasSuffix (s suf : bytes) : bool := (zlen suf <=? zlen s) && beqb (skipn (length s - length suf) s) suf.
Definition cut (n : Z) (s : bytes) : bytes := firstn (Z.to_nat (zlen s - n)) s.

(** auth/client_store.go:53-57: the cache; an entry is an auth.Client, which has the fields of
    codec.AuthConf (client.go:7-28, codec/auth_conf.go:10-31). *)
Definition cache := list (bytes * authconf).
Definition with_ISP (isp : bytes) (c : authconf) : authconf :=
  AuthConf isp (ac_ClientId c) (ac_LoginName c) (ac_SharedSecret c) (ac_Version c) (ac_NeedReport c) (ac_SmsDisplayNo c) (ac_ServiceId c)
    (ac_DefaultMsgLevel c) (ac_FeeUserType c) (ac_FeeTerminalType c) (ac_FeeTerminalId c) (ac_FeeType c) (ac_FeeCode c) (ac_FixedFee c) (ac_LinkId c)
    (ac_MtValidDuration c) (ac_MaxConns c) (ac_MtWindowSize c) (ac_Throughput c).
(** A directory entry: name, is a directory, decoded content. *)
Record dirent := Dirent { de_name : bytes; de_dir : bool; de_data : option authconf }.
(** auth/yaml_store.go:33-39: the key of a file *)
Definition ext_yaml : bytes := btext ".yaml".
Definition ext_yml : bytes := btext ".yml".
Definition file_key (name : bytes) : bytes :=
  let key := if HasSuffix name ext_yaml then cut 5 name else [] in
  if HasSuffix name ext_yml then cut 4 name else key.
(** auth/yaml_store.go:59-71 unmarshal *)
Definition unmarshal (data : option authconf) (id : bytes) (c : cache) : res cache :=
  match data with
  | None => Ok c
  | Some cli => isp <- slice id 0 4 ;; Ok (store_at beqb id (with_ISP isp cli) c)
  end.
(** auth/yaml_store.go:13-50 Load (files in the order of ReadDir) *)
Fixpoint yaml_Load (files : list dirent) (c : cache) : res cache :=
  match files with
  | [] => Ok c
  | f :: r =>
    if de_dir f then yaml_Load r c
    else match file_key (de_name f) with
         | [] => yaml_Load r c
         | key => c1 <- unmarshal (de_data f) (ToLower key) c ;; yaml_Load r c1
         end
  end.
(** auth/mongo_store.go:20-42 Load: the documents of the collection in cursor order; the query
    failed: [ok] = false; a document that does not decode ends the load. *)
Fixpoint mongo_docs (docs : list (option authconf)) (c : cache) : cache :=
  match docs with
  | [] => c
  | None :: _ => c
  | Some d :: r => mongo_docs r (store_at beqb (ac_ISP d ++ [95] ++ ac_ClientId d) d c)
  end.
Definition mongo_Load (ok : bool) (docs : list (option authconf)) (c : cache) : cache := if ok then mongo_docs docs c else c.
(** auth/yaml_store.go:52-57, mongo_store.go:44-49 FindByCid *)
Definition FindByCid (c : cache) (isp cid : bytes) : option authconf := load beqb (ToLower isp ++ [95] ++ cid) c.

(** ** StructCopy *)
(** Structs by reflection: a type is a list of named fields with their types, an object a list of
    values; objects live at addresses.  The field types in question are plain values (no pointers). *)
Inductive ftype := TString | TByte | TInt | TDuration.
Inductive fval := VText (b : bytes) | VNum (z : Z).
Definition stype := list (string * ftype).
Definition ftype_eqb (a b : ftype) : bool := match a, b with TString, TString | TByte, TByte | TInt, TInt | TDuration, TDuration => true | _, _ => false end.
Definition obj := list fval.
Definition memory := list obj.
(** reflect Type.FieldByName: the place of the field *)
Fixpoint field_by_name (t : stype) (n : string) (i : nat) : option (nat * ftype) :=
  match t with [] => None | (m, ty) :: r => if String.eqb m n then Some (i, ty) else field_by_name r n (S i) end.
Definition put_nth {A} (l : list A) (i : nat) (v : A) : list A := firstn i l ++ match skipn i l with [] => [] | _ :: r => v :: r end.
Definition write_field (m : memory) (a i : nat) (v : fval) : memory :=
  match nth_error m a with Some o => put_nth m a (put_nth o i v) | None => m end.
(** utils/utils.go:253-262: the loop over the fields of the target, from field [i] on *)
Fixpoint copy_fields (from_t : stype) (from : nat) (to_t : stype) (i : nat) (to : nat) (m : memory) : memory :=
  match to_t with
  | [] => m
  | (n, ty) :: r =>
    let m1 := match field_by_name from_t n 0 with
              | Some (j, ty') => if ftype_eqb ty' ty then match nth_error m from with
                                                         | Some o => match nth_error o j with Some v => write_field m to i v | None => m end
                                                         | None => m
                                                         end else m
              | None => m
              end in
    copy_fields from_t from r (S i) to m1
  end.
(** utils/utils.go:236-263 StructCopy; None = a nil pointer *)
Definition StructCopy (from_t : stype) (from : option nat) (to_t : stype) (to : option nat) (m : memory) : memory :=
  match from, to with Some a, Some b => copy_fields from_t a to_t 0 b m | _, _ => m end.
(** auth/client.go:7-28 *)
Definition Client_t : stype :=
  [("ISP", TString); ("ClientId", TString); ("LoginName", TString); ("SharedSecret", TString); ("Version", TByte); ("NeedReport", TByte); ("SmsDisplayNo", TString); ("ServiceId", TString);
   ("DefaultMsgLevel", TByte); ("FeeUserType", TByte); ("FeeTerminalType", TByte); ("FeeTerminalId", TString); ("FeeType", TString); ("FeeCode", TString); ("FixedFee", TString); ("LinkId", TString);
   ("MtValidDuration", TDuration); ("MaxConns", TInt); ("MtWindowSize", TInt); ("Throughput", TInt)].
(** codec/auth_conf.go:10-31 *)
Definition AuthConf_t : stype :=
  [("ISP", TString); ("ClientId", TString); ("LoginName", TString); ("SharedSecret", TString); ("Version", TByte); ("NeedReport", TByte); ("SmsDisplayNo", TString); ("ServiceId", TString);
   ("DefaultMsgLevel", TByte); ("FeeUserType", TByte); ("FeeTerminalType", TByte); ("FeeTerminalId", TString); ("FeeType", TString); ("FeeCode", TString); ("FixedFee", TString); ("LinkId", TString);
   ("MtValidDuration", TDuration); ("MaxConns", TInt); ("MtWindowSize", TInt); ("Throughput", TInt)].
(** The zero value of a type. *)
Definition zero_of (t : stype) : obj := map (fun '(_, ty) => match ty with TString => VText [] | _ => VNum 0 end) t.
(** msc_server/utils.go:9-17, msc_client/session_factory.go:376-384 FindAuthConf: [c] = the address
    of the entry that FindByCid gave; the result is a new object. *)
Definition FindAuthConf (c : option nat) (m : memory) : option nat * memory :=
  match c with
  | None => (None, m)
  | Some a => let b := length m in (Some b, StructCopy Client_t (Some a) AuthConf_t (Some b) (m ++ [zero_of AuthConf_t]))
  end.
