(** View API groups (pkg/api/view/v1alpha1/group_version.go), object UIDs
    (pkg/object/uid.go) and the decoding of Secrets (pkg/object/secret.go). *)
From Verif Require Export ObjModel.

(** Split at the first '.' *)
Fixpoint cut_dot (s : string) : option (string * string) :=
  match s with
  | EmptyString => None
  | String c s' =>
      if decide (c = "."%char) then Some (EmptyString, s')
      else '(a, b) ← cut_dot s'; Some (String c a, b)
  end.
(** strings.SplitN(s, ".", 3) *)
Definition split3 (s : string) : list string :=
  match cut_dot s with
  | None => [s]
  | Some (a, r) => match cut_dot r with None => [a; r] | Some (b, c) => [a; b; c] end
  end.
(** The last element of strings.Split(s, "."). *)
Fixpoint last_part (s : string) : string :=
  match s with
  | EmptyString => EmptyString
  | String c s' =>
      match cut_dot s' with
      | Some _ => last_part s'
      | None => if decide (c = "."%char) then s' else s
      end
  end.

(** group_version.go:33-44 MapIntoView *)
Definition map_into_view (operator : string) (x : gvk) : gvk :=
  let group := if decide (gvk_group x = EmptyString) then "core"%string else gvk_group x in
  GVK (group +:+ "." +:+ gvk_version x +:+ "." +:+ view_group operator) view_version (gvk_kind x).
(** group_version.go:47-66 MapFromView; [None] is an error *)
Definition map_from_view (x : gvk) : option gvk :=
  if is_view_group (gvk_group x) then
    match split3 (gvk_group x) with
    | [a; b; _] => Some (GVK (if decide (a = "core"%string) then EmptyString else a) b (gvk_kind x))
    | _ => None
    end
  else None.
(** group_version.go:69-77 GetOperator *)
Definition get_operator (x : gvk) : string :=
  let s := gvk_group x in
  if has_suffix full_group_suffix s
  then last_part (String.substring 0 (String.length s - String.length full_group_suffix) s)
  else EmptyString.

(** uid.go:15-23 NewUID; the formatted SHA-256 is a parameter. *)
Definition uid_key (x : gvk) (ns name : string) : string :=
  gvk_group x +:+ "/" +:+ gvk_version x +:+ "/" +:+ gvk_kind x +:+ "/" +:+ ns +:+ "/" +:+ name.
Definition new_uid (hash : string -> string) (x : gvk) (ns name : string) : string := hash (uid_key x ns name).
(** Unstructured.SetUID (apimachinery, recalled); an error of SetNestedField is
    ignored. *)
Definition set_uid (m : jobj) (u : string) : jobj :=
  if decide (u = EmptyString) then nested_del m ["metadata"; "uid"] else nested_set' m ["metadata"; "uid"] (JStr u).
(** uid.go:27-33 WithUID *)
Definition with_uid (hash : string -> string) (m : jobj) : jobj :=
  if negb (is_view_kind (get_gvk m)) || negb (String.eqb (get_uid m) "") then m
  else set_uid m (new_uid hash (get_gvk m) (get_namespace m) (get_name m)).

(** encoding/base64 StdEncoding.DecodeString (Go standard library, recalled):
    '\r' and '\n' are skipped, padding is required, the unused bits of the last
    character are ignored.  [None] is an error. *)
Definition b64_val (c : ascii) : option N :=
  let n := N_of_ascii c in
  if byte_in 65 90 c then Some (n - 65)%N
  else if byte_in 97 122 c then Some (n - 71)%N
  else if byte_in 48 57 c then Some (n + 4)%N
  else if decide (c = "+"%char) then Some 62%N
  else if decide (c = "/"%char) then Some 63%N
  else None.
Definition b64_newline (c : ascii) : bool := byte_in 13 13 c || byte_in 10 10 c.
Fixpoint drop_newlines (s : string) : string :=
  match s with
  | EmptyString => EmptyString
  | String c s => if b64_newline c then drop_newlines s else String c (drop_newlines s)
  end.
Definition byte1 (a b : N) : ascii := ascii_of_N (a * 4 + b / 16).
Definition byte2 (b c : N) : ascii := ascii_of_N ((b mod 16) * 16 + c / 4).
Definition byte3 (c d : N) : ascii := ascii_of_N ((c mod 4) * 64 + d).
Fixpoint b64_quads (s : string) : option string :=
  match s with
  | EmptyString => Some EmptyString
  | String c1 (String c2 (String c3 (String c4 s))) =>
      a ← b64_val c1; b ← b64_val c2;
      if decide (c3 = "="%char) then
        if decide (c4 = "="%char /\ s = EmptyString) then Some (String (byte1 a b) EmptyString) else None
      else
        c ← b64_val c3;
        if decide (c4 = "="%char) then
          if decide (s = EmptyString) then Some (String (byte1 a b) (String (byte2 b c) EmptyString)) else None
        else
          d ← b64_val c4; r ← b64_quads s;
          Some (String (byte1 a b) (String (byte2 b c) (String (byte3 c d) r)))
  | _ => None
  end.
Definition b64_decode (s : string) : option string := b64_quads (drop_newlines s).

(** secret.go:39-49: one entry, then all of them. *)
Definition decode_value (v : json) : json :=
  match v with JStr s => match b64_decode s with Some t => JStr t | None => v end | _ => v end.
(** secret.go:17-53 DecodeSecretData *)
Definition decode_secret (m : jobj) : jobj :=
  if decide (get_kind m = "Secret"%string) then
    match mget m "data" with
    | Some (JMap d) => mset m "data" (JMap (map (fun kv => (kv.1, decode_value kv.2)) d))
    | _ => m
    end
  else m.
(** pkg/controller/reconcilers.go:48: the object of the request is decoded in
    place, and a retried request carries the same object, so attempt [n]
    (counted from 0) sees the object decoded [n + 1] times. *)
Definition attempt_object (n : nat) (m : jobj) : jobj := Nat.iter (S n) decode_secret m.
