(** Model of what the API server does with requests for views: the storage of a
    registered kind (pkg/apiserver/storage.go), on top of the client of the view
    cache, and the tables that kubectl shows.

    The handlers of k8s.io/apiserver, which decode requests and call the storage,
    are not modelled: a request is the call they make.  They are taken to refuse
    an update whose object has another name or namespace than the URL
    (recalled). *)
From Verif Require Export ViewModel.

(** metav1.CreateOptions, UpdateOptions and DeleteOptions: dryRun, and the
    preconditions on the UID and the version. *)
Record ropts := Ropts { o_dry_run : bool; o_uid : option string; o_version : option string }.

(** What a call of the storage returns: an object, a deleted object, a list of
    objects or an error. *)
Inductive sreply :=
  | SObject (m : jobj) | SGone (m : jobj) | SItems (l : list jobj)
  | SBadRequest | SNotFound | SRefused | SInternal.

(** A call.  [ns] is the namespace in the context, which may be missing; [valid] and
    the like are the validation functions; [upd] is rest.UpdatedObjectInfo, which makes
    the new object from the current one, if there is any, or fails. *)
Inductive sreq :=
  | SGet (ns : option string) (name : string)
  | SList (ns : option string) (labels : option (option (list (string * string)) -> bool)) (fields : option (list (string * string) -> bool))
  | SCreate (ns : option string) (m : jobj) (valid : jobj -> bool) (o : ropts)
  | SUpdate (ns : option string) (name : string) (upd : option jobj -> option jobj) (valid_new : jobj -> bool) (valid : jobj -> jobj -> bool) (force : bool) (o : ropts)
  | SDelete (ns : option string) (name : string) (valid : jobj -> bool) (o : ropts)
  | SDeleteAll (ns : option string) (valid : jobj -> bool) (labels : option (option (list (string * string)) -> bool)) (fields : option (list (string * string) -> bool)) (o : ropts).

Section storage.
Variable hash : string -> string.
Variable lister : store -> list jobj.
(** storage.go:27-34: the kind, and whether its objects have a namespace (they always do:
    resource.go:36-48). *)
Variable x : gvk.
Variable namespaced : bool.

(** storage.go:76-84 *)
Definition st_key (ns : option string) (name : string) : option (string * string) :=
  if namespaced then (fun n => (n, name)) <$> ns else Some (EmptyString, name).
(** storage.go:70-94 Get.  Only views are registered (resource.go:27-32), so NotFound is
    the only error of the client. *)
Definition st_get (c : caches) (ns : option string) (name : string) : sreply :=
  match st_key ns name with
  | None => SBadRequest
  | Some k => match vc_get c x k.1 k.2 with Some m => SObject m | None => SNotFound end
  end.
(** storage.go:109-114 *)
Definition st_list_kind : gvk := GVK (gvk_group x) (gvk_version x) (gvk_kind x +:+ "List").
(** storage.go:117-133 and, for watches, 312-330 *)
Definition st_selection (ns : option string) (labels : option (option (list (string * string)) -> bool)) (fields : option (list (string * string) -> bool)) : selection :=
  Selection (if namespaced then default EmptyString ns else EmptyString) labels fields.
(** storage.go:99-140 List *)
Definition st_list (c : caches) (s : selection) : list jobj := vc_list lister c st_list_kind s.
(** storage.go:146-181 Create; view_client.go:58-64: the client does not look at the
    options, and does not care whether the object exists. *)
Definition st_create (c : caches) (ns : option string) (m : jobj) (valid : jobj -> bool) (_ : ropts) : caches * list (gvk * wevent) * sreply :=
  if valid m then
    let m := set_gvk m x in
    match (if namespaced then set_namespace m <$> ns else Some m) with
    | None => (c, [], SBadRequest)
    | Some m => match vc_add hash c m with (c', es, VOk) => (c', es, SObject m) | (c', es, _) => (c', es, SInternal) end
    end
  else (c, [], SRefused).
(** storage.go:186-230 Update *)
Definition st_update (c : caches) (ns : option string) (name : string) (upd : option jobj -> option jobj)
    (valid_new : jobj -> bool) (valid : jobj -> jobj -> bool) (force : bool) (_ : ropts) : caches * list (gvk * wevent) * sreply :=
  match st_get c ns name with
  | SObject cur =>
      match upd (Some cur) with
      | None => (c, [], SRefused)
      | Some m =>
          if valid m cur then
            let m := set_gvk m x in
            match cl_update hash c m with (c', es, VOk) => (c', es, SObject m) | (c', es, _) => (c', es, SInternal) end
          else (c, [], SRefused)
      end
  | SNotFound =>
      if force then match upd None with None => (c, [], SRefused) | Some m => st_create c ns m valid_new (Ropts false None None) end
      else (c, [], SNotFound)
  | r => (c, [], r)
  end.
(** storage.go:235-261 Delete *)
Definition st_delete (c : caches) (ns : option string) (name : string) (valid : jobj -> bool) (_ : ropts) : caches * list (gvk * wevent) * sreply :=
  match st_get c ns name with
  | SObject m =>
      if valid m then
        match vc_delete c m with
        | (c', es, VOk) => (c', es, SGone m)
        | (c', es, VNotFound) => (c', es, SNotFound)
        | (c', es, VInvalid) => (c', es, SInternal)
        end
      else (c, [], SRefused)
  | r => (c, [], r)
  end.
(** storage.go:266-292 DeleteCollection: errors are ignored, and the whole list is
    returned *)
Fixpoint delete_each (c : caches) (valid : jobj -> bool) (l : list jobj) : caches * list (gvk * wevent) :=
  match l with
  | [] => (c, [])
  | m :: l =>
      if valid m then
        let '(c1, es, _) := vc_delete c m in
        let '(c2, es') := delete_each c1 valid l in (c2, es ++ es')
      else delete_each c valid l
  end.

Definition serve (c : caches) (r : sreq) : caches * list (gvk * wevent) * sreply :=
  match r with
  | SGet ns name => (c, [], st_get c ns name)
  | SList ns labels fields => (c, [], SItems (st_list c (st_selection ns labels fields)))
  | SCreate ns m valid o => st_create c ns m valid o
  | SUpdate ns name upd valid_new valid force o => st_update c ns name upd valid_new valid force o
  | SDelete ns name valid o => st_delete c ns name valid o
  | SDeleteAll ns valid labels fields o =>
      let l := st_list c (st_selection ns labels fields) in
      let '(c', es) := delete_each c valid l in (c', es, SItems l)
  end.
End storage.

(** Requests for the storages of several kinds, and writes by others (the pipelines). *)
Inductive sact := Api (x : gvk) (r : sreq) | Write (o : vop).
Inductive sresult := Reply (r : sreply) | Wrote (r : vresult).
Definition sact_step (hash : string -> string) (lister : store -> list jobj) (c : caches) (a : sact) : caches * list (gvk * wevent) * sresult :=
  match a with
  | Api x r => let '(c', es, p) := serve hash lister x true c r in (c', es, Reply p)
  | Write o => let '(c', es, p) := vstep hash lister c o in (c', es, Wrote p)
  end.
Fixpoint sact_run (hash : string -> string) (lister : store -> list jobj) (c : caches) (l : list sact) : caches * list (gvk * wevent) * list sresult :=
  match l with
  | [] => (c, [], [])
  | a :: l =>
      let '(c1, es, p) := sact_step hash lister c a in
      let '(c2, es', ps) := sact_run hash lister c1 l in
      (c2, es ++ es', p :: ps)
  end.

(** *** Tables *)

(** storage.go:482-487 *)
Definition well_known (t : string) : option nat :=
  if decide (t = "Ready"%string) then Some 1%nat else if decide (t = "Available"%string) then Some 2%nat
  else if decide (t = "Progressing"%string) then Some 3%nat else if decide (t = "Degraded"%string) then Some 4%nat else None.
(** strings.Split(s, ":")[0] *)
Fixpoint before_colon (s : string) : string :=
  match s with
  | EmptyString => EmptyString
  | String c s => if decide (c = Ascii.ascii_of_N 58) then EmptyString else String c (before_colon s)
  end.
(** A missing key of a Go map gives 0. *)
Definition rank (t : string) : nat := default 0%nat (well_known t).
(** storage.go:500-512 *)
Fixpoint insert_pair (p : nat) (pair : string) (l : list string) : list string :=
  match l with
  | [] => [pair]
  | e :: l => if (p <? rank (before_colon e))%nat then pair :: e :: l else e :: insert_pair p pair l
  end.
(** storage.go:489-517, for the loop over the conditions; the well-known ones and the others *)
Fixpoint sort_conditions (l : list json) (known others : list string) : list string * list string :=
  match l with
  | [] => (known, others)
  | JMap m :: l =>
      match mget m "type", mget m "status" with
      | Some (JStr t), Some (JStr s) =>
          let pair := (t +:+ ":" +:+ s)%string in
          match well_known t with
          | Some p => sort_conditions l (insert_pair p pair known) others
          | None => sort_conditions l known (others ++ [pair])
          end
      | _, _ => sort_conditions l known others
      end
  | _ :: l => sort_conditions l known others
  end.
(** strings.Join(l, ",") *)
Fixpoint join_comma (l : list string) : string :=
  match l with [] => EmptyString | [s] => s | s :: l => (s +:+ "," +:+ join_comma l)%string end.
(** storage.go:526-533, 549-556: at most three, and how many more there are *)
Definition at_most_three (l : list string) : string :=
  if (3 <? length l)%nat then (join_comma (take 3 l) +:+ " +" +:+ enc_int (Z.of_nat (length l - 3)) +:+ " more")%string else join_comma l.
(** storage.go:464-534 extractConditionsSummary *)
Definition conditions_cell (m : jobj) : string :=
  match nested_get m ["status"; "conditions"] with
  | Some (JList (c :: l)) =>
      let '(known, others) := sort_conditions (c :: l) [] [] in
      match (known ++ others)%list with [] => "<none>"%string | pairs => at_most_three pairs end
  | _ => "<none>"%string
  end.
(** storage.go:538-557 formatLabels; [order] is the iteration order of the map *)
Definition labels_cell (order : list (string * string) -> list (string * string)) (labels : option (list (string * string))) : string :=
  match labels with
  | None | Some [] => "<none>"%string
  | Some l => at_most_three (map (fun kv => (kv.1 +:+ "=" +:+ kv.2)%string) (order l))
  end.
(** storage.go:561-568 formatAnnotations *)
Definition annotations_cell (annotations : option (list (string * string))) : string :=
  match annotations with
  | None | Some [] => "<none>"%string
  | Some l => enc_int (Z.of_nat (length l))
  end.
(** storage.go:433-458 objectToTableRow; Unstructured.GetAnnotations (recalled) *)
Definition table_row (order : list (string * string) -> list (string * string)) (namespaced : bool) (m : jobj) : list string :=
  (if namespaced then [get_namespace m] else [])
  ++ [get_name m; conditions_cell m; labels_cell order (get_labels m); annotations_cell (string_map (nested_get m ["metadata"; "annotations"]))].
(** storage.go:347-384 ConvertToTable and 388-430 getColumnDefinitions *)
Definition table_columns (namespaced : bool) : list string :=
  (if namespaced then ["Namespace"%string] else []) ++ ["Name"; "Conditions"; "Labels"; "Annotations"]%string.
Definition table_rows (order : list (string * string) -> list (string * string)) (namespaced : bool) (l : list jobj) : list (list string) :=
  map (table_row order namespaced) l.
