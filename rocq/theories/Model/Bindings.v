(** The uniffi and wasm bindings: error names, callbacks, resolver adapters, and
    the options objects read from JSON. *)
From Verif.Model Require Import Prelude Json Serde DidDoc Crypto Effects Message FromPrior Pack Unpack.

(** *** wasm/src/error.rs *)

(** wasm/src/error.rs:12-23: the JavaScript error name given to an error kind *)
Definition js_name (k : errkind) : bytes :=
  match k with
  | DIDNotResolved => B "DIDCommDIDNotResolved"
  | DIDUrlNotFound => B "DIDCommDIDUrlNotFound"
  | Malformed => B "DIDCommMalformed"
  | IoError => B "DIDCommIoError"
  | InvalidState => B "DIDCommInvalidState"
  | NoCompatibleCrypto => B "DIDCommNoCompatibleCrypto"
  | Unsupported => B "DIDCommUnsupported"
  | IllegalArgument => B "DIDCommIllegalArgument"
  | SecretNotFound => B "DIDCommSecretNotFound"
  end.

(** What a JavaScript resolver can throw.
    (wasm/src/error.rs:37-70.) *)
Inductive js_thrown := JsString (s : bytes) | JsErr (name : bytes) | JsOther.

(** wasm/src/error.rs:37-70: from_js *)
Definition from_js (t : js_thrown) : errkind :=
  match t with
  | JsString _ => InvalidState
  | JsErr n =>
      if beq n (B "DIDCommDIDNotResolved") then DIDNotResolved
      else if beq n (B "DIDCommDIDUrlNotFound") then DIDUrlNotFound
      else if beq n (B "DIDCommMalformed") then Malformed
      else if beq n (B "DIDCommIoError") then IoError
      else if beq n (B "DIDCommInvalidState") then InvalidState
      else if beq n (B "DIDCommNoCompatibleCrypto") then NoCompatibleCrypto
      else if beq n (B "DIDCommUnsupported") then Unsupported
      else if beq n (B "DIDCommIllegalArgument") then IllegalArgument
      else InvalidState
  | JsOther => InvalidState
  end.

(** *** Resolver adapters *)

(** wasm/src/secrets/secrets_resolver.rs:97-131: find_secrets.  The JavaScript
    answer is a thrown value, something that is not an array ([inr None]), or an
    array whose elements are strings ([Some]) or not. *)
Definition js_find_secrets (ids : list bytes) (ans : js_thrown + option (list (option bytes)))
  : res (list bytes) :=
  match ans with
  | inl t => Err (from_js t)
  | inr None => Err InvalidState
  | inr (Some l) =>
      let found := flat_map (fun o => match o with Some s => [s] | None => [] end) l in
      Ok (filter (fun s => existsb (fun f => beq f s) found) ids)
  end.

(** uniffi/src/secrets/secrets_resolver_adapter.rs:36-52: find_secrets, given what
    the callback delivered *)
Definition ffi_find_secrets (ids : list bytes) (ans : res (list bytes)) : res (list bytes) :=
  let? found := kind InvalidState ans in
  Ok (filter (fun s => existsb (fun f => beq f s) found) ids).
(** uniffi/src/secrets/secrets_resolver_adapter.rs:23-34: get_secret *)
Definition ffi_get_secret (ans : res (option secret)) : res (option secret) := kind InvalidState ans.
(** uniffi/src/did/did_resolver_adapter.rs:24-34: resolve *)
Definition ffi_resolve (ans : res (option diddoc)) : res (option diddoc) := kind InvalidState ans.

(** *** uniffi/src/common.rs: one-shot results *)

(** uniffi/src/common.rs:51-58 with the futures oneshot channel behind it:
    [cb_sender]: the sender is still in the cell; [cb_receiver]: the awaiting
    future is alive; [cb_value]: what was sent. *)
Record cb_state (A : Type) := mkCB { cb_sender : bool; cb_receiver : bool; cb_value : option (res A) }.
Arguments mkCB {A}. Arguments cb_sender {A}. Arguments cb_receiver {A}. Arguments cb_value {A}.
(** uniffi/src/common.rs:51-58: a callback that was just created. *)
Definition cb_new {A} : cb_state A := mkCB true true None.

(** uniffi/src/common.rs:60-88: success and error, under the mutex (so calls from
    several threads happen one after the other).  The first component is what the
    caller gets. *)
Definition cb_call {A} (r : res A) (s : cb_state A) : res unit * cb_state A :=
  if cb_sender s then
    if cb_receiver s then (Ok tt, mkCB false (cb_receiver s) (Some r))
    else (Err InvalidState, mkCB false (cb_receiver s) (cb_value s))
  else (Err InvalidState, s).
(** The awaiting future is dropped.
    (The receiving half of uniffi/src/common.rs:51-58.) *)
Definition cb_cancel {A} (s : cb_state A) : cb_state A := mkCB (cb_sender s) false (cb_value s).
(** The foreign side drops the callback object (and the sender with it).
    (The sending half of uniffi/src/common.rs:51-58.) *)
Definition cb_drop {A} (s : cb_state A) : cb_state A := mkCB false (cb_receiver s) (cb_value s).
(** uniffi/src/common.rs:43-49: get; [None] while still waiting *)
Definition cb_get {A} (s : cb_state A) : option (res A) :=
  match cb_value s with
  | Some r => Some r
  | None => if cb_sender s then None else Some (Err InvalidState)
  end.

(** *** uniffi/src/didcomm/*.rs: reporting to the caller's callback *)

(** What happens to the callback passed to [DIDComm::unpack] and friends
    (uniffi/src/didcomm/unpack.rs:25-32, pack_encrypted.rs:29-45, ...): the spawned
    task reports the result once; a panic kills the task without any report. *)
Inductive report (A : Type) := Success (a : A) | Failure (k : errkind).
Arguments Success {A}. Arguments Failure {A}.
(** uniffi/src/didcomm/unpack.rs:25-32 and its siblings: which methods of the callback are called. *)
Definition reports {A} (r : res A) : list (report A) :=
  match r with
  | Ok a => [Success a]
  | Err k => [Failure k]
  | Panic => []
  end.

(** *** Options objects *)

(** #[serde(default)] in array form: a missing element takes the default
    (src/message/pack_encrypted/mod.rs:203-231, src/message/unpack/mod.rs:157-169). *)
Definition elem_or {A} (d : A) (f : raw -> res A) (l : list raw) (tl : option jerr) : res (A * list raw) :=
  match l, tl with
  | [], None => Ok (d, [])
  | _, _ => elem f l tl
  end.
(** #[serde(default)] in object form (src/message/pack_encrypted/mod.rs:203-231,
    src/message/unpack/mod.rs:157-169). *)
Definition or_default {A} (d : A) (o : option A) : A := match o with Some a => a | None => d end.

(** src/message/unpack/mod.rs:157-169: Deserialize for UnpackOptions *)
Definition de_unpack_options (r : raw) : res unpack_options :=
  match r with
  | RObj l tl =>
      let? s := walk (fun '(a, u) k v =>
          if beq k (B "expect_decrypt_by_all_keys") then let? a := once a de_bool v in Ok (a, u)
          else if beq k (B "unwrap_re_wrapping_forward") then let? u := once u de_bool v in Ok (a, u)
          else let? _ := skip v in Ok (a, u)) (None, None) l tl in
      let '(a, u) := s in Ok (mkUO (or_default false a) (or_default false u))
  | RArr l tl =>
      let? (a, l) := elem_or false de_bool l tl in
      let? (u, l) := elem_or false de_bool l tl in
      let? _ := end_seq l tl in Ok (mkUO a u)
  | _ => mismatch r
  end.

(** Unit-variant enums (src/algorithms.rs:4-36): a string, or an object with the
    variant name and null. *)
Definition de_unit_enum {A} (f : bytes -> option A) (r : raw) : res A :=
  match r with
  | RStr _ rd => let? s := rd_str rd in ok_or Malformed (f s)
  | RObj ((k, v) :: l) tl =>
      let? s := rd_str k in let? a := ok_or Malformed (f s) in
      match v with
      | RNull => match l with [] => close tl a | _ => Err Malformed end
      | _ => mismatch v
      end
  | RObj [] (Some e) => Err (jkind e)
  | _ => mismatch r
  end.
(** src/algorithms.rs:4-36: the variant name of AuthCryptAlg. *)
Definition auth_alg_of (s : bytes) : option auth_alg :=
  if beq s (B "A256cbcHs512Ecdh1puA256kw") then Some AuthA256cbcHs512 else None.
(** src/algorithms.rs:4-36: the variant names of AnonCryptAlg. *)
Definition anon_alg_of (s : bytes) : option anon_alg :=
  if beq s (B "A256cbcHs512EcdhEsA256kw") then Some AnonA256cbcHs512
  else if beq s (B "Xc20pEcdhEsA256kw") then Some AnonXc20p
  else if beq s (B "A256gcmEcdhEsA256kw") then Some AnonA256gcm
  else None.

Section Options.
Variable fparse : bytes -> option bytes.

(** HashMap<String, Value>; [d] is how deep its values may be nested.
    (src/message/pack_encrypted/mod.rs:203-231, forward_headers, one level below the
    options object; wasm/src/message/protocols/routing/mod.rs:46-49, at the top.) *)
Definition de_headers (d : nat) (r : raw) : res (list (bytes * value)) :=
  match r with
  | RObj l tl =>
      walk (fun m k v => let? v := to_value fparse d v in Ok (amap_insert k v m)) [] l tl
  | _ => mismatch r
  end.

(** src/message/pack_encrypted/mod.rs:203-231: Deserialize for PackEncryptedOptions *)
Definition de_pack_options (r : raw) : res pack_options :=
  match r with
  | RObj l tl =>
      let? s := walk (fun '(p, f, h, m, a, n) k v =>
          if beq k (B "protect_sender") then let? p := once p de_bool v in Ok (p, f, h, m, a, n)
          else if beq k (B "forward") then let? f := once f de_bool v in Ok (p, f, h, m, a, n)
          else if beq k (B "forward_headers") then let? h := once h (de_option (de_headers (max_depth - 2))) v in Ok (p, f, h, m, a, n)
          else if beq k (B "messaging_service") then let? m := once m (de_option de_string) v in Ok (p, f, h, m, a, n)
          else if beq k (B "enc_alg_auth") then let? a := once a (de_unit_enum auth_alg_of) v in Ok (p, f, h, m, a, n)
          else if beq k (B "enc_alg_anon") then let? n := once n (de_unit_enum anon_alg_of) v in Ok (p, f, h, m, a, n)
          else let? _ := skip v in Ok (p, f, h, m, a, n)) (None, None, None, None, None, None) l tl in
      let '(p, f, h, m, a, n) := s in
      Ok (mkPO (or_default false p) (or_default true f) (flat h) (flat m)
               (or_default AuthA256cbcHs512 a) (or_default AnonXc20p n))
  | RArr l tl =>
      let? (p, l) := elem_or false de_bool l tl in
      let? (f, l) := elem_or true de_bool l tl in
      let? (h, l) := elem (de_option (de_headers (max_depth - 2))) l tl in
      let? (m, l) := elem (de_option de_string) l tl in
      let? (a, l) := elem_or AuthA256cbcHs512 (de_unit_enum auth_alg_of) l tl in
      let? (n, l) := elem_or AnonXc20p (de_unit_enum anon_alg_of) l tl in
      let? _ := end_seq l tl in Ok (mkPO p f h m a n)
  | _ => mismatch r
  end.
End Options.

(** wasm/src/message/unpack.rs:32-35, pack_encrypted.rs:30-33: any failure is Malformed *)
Definition js_unpack_options (s : bytes) : res unpack_options := kind Malformed (from_json de_unpack_options s).
(** wasm/src/message/pack_encrypted.rs:30-33: any failure is Malformed. *)
Definition js_pack_options (fparse : bytes -> option bytes) (s : bytes) : res pack_options :=
  kind Malformed (from_json (de_pack_options fparse) s).
