(** Shared by the test files: comparison of results, and the helper functions that the unit
    tests of the repository define for themselves. *)
From Verif.Model Require Import Prelude Json Serde Base64 Crypto DidDoc Effects Keys Jws Jwe Message FromPrior Pack Unpack.
From Verif.Spec Require Import Sha2.
From Verif.Tests Require Import Real Vectors.
Open Scope N_scope.

Definition err_of {A} (r : res A) : option errkind := match r with Err k => Some k | _ => None end.
Definition is_ok {A} (dec : forall x y : A, {x = y} + {x <> y}) (r : res A) (a : A) : bool :=
  match r with Ok x => if dec x a then true else false | _ => false end.

Definition bytes_dec : forall x y : bytes, {x = y} + {x <> y} := list_eq_dec ascii_dec.
Definition option_dec {A} (d : forall x y : A, {x = y} + {x <> y}) : forall x y : option A, {x = y} + {x <> y}.
Proof. decide equality. Defined.
Definition number_dec : forall x y : number, {x = y} + {x <> y}.
Proof. decide equality; try apply N.eq_dec; apply bytes_dec. Defined.
Fixpoint value_dec (x y : value) {struct x} : {x = y} + {x <> y}.
Proof.
  decide equality.
  - apply bool_dec.
  - apply number_dec.
  - apply bytes_dec.
  - apply (list_eq_dec value_dec).
  - apply list_eq_dec. intros [a b] [c d].
    destruct (bytes_dec a c) as [<-|N]; [|right; congruence].
    destruct (value_dec b d) as [<-|N]; [left; reflexivity | right; congruence].
Defined.
Definition jwe_alg_dec : forall x y : jwe_alg, {x = y} + {x <> y}.
Proof. decide equality; apply bytes_dec. Defined.
Definition jwe_enc_dec : forall x y : jwe_enc, {x = y} + {x <> y}.
Proof. decide equality; apply bytes_dec. Defined.
Definition jws_alg_dec : forall x y : jws_alg, {x = y} + {x <> y}.
Proof. decide equality; apply bytes_dec. Defined.
Definition jwe_dec : forall x y : jwe, {x = y} + {x <> y}.
Proof. decide equality; try apply bytes_dec. apply list_eq_dec. decide equality; apply bytes_dec. Defined.
Definition jwe_header_dec : forall x y : jwe_header, {x = y} + {x <> y}.
Proof.
  decide equality; try apply bytes_dec; try apply (option_dec bytes_dec); try apply value_dec;
    [apply jwe_enc_dec | apply jwe_alg_dec].
Defined.
Definition parsed_jwe_dec : forall x y : parsed_jwe, {x = y} + {x <> y}.
Proof. decide equality; [apply bytes_dec | apply (option_dec bytes_dec) | apply jwe_header_dec | apply jwe_dec]. Defined.
Definition jws_dec : forall x y : jws, {x = y} + {x <> y}.
Proof. decide equality; try apply bytes_dec. apply list_eq_dec. decide equality; apply bytes_dec. Defined.
Definition parsed_jws_dec : forall x y : parsed_jws, {x = y} + {x <> y}.
Proof.
  decide equality; [|apply jws_dec]. apply list_eq_dec. decide equality; [apply jws_alg_dec | apply bytes_dec].
Defined.
Definition parsed_compact_dec : forall x y : parsed_compact, {x = y} + {x <> y}.
Proof. decide equality; try apply bytes_dec. decide equality; try apply bytes_dec. apply jws_alg_dec. Defined.
Definition from_prior_dec : forall x y : from_prior, {x = y} + {x <> y}.
Proof. decide equality; try apply (option_dec bytes_dec); try apply (option_dec N.eq_dec); apply bytes_dec. Defined.
Definition attachment_dec : forall x y : attachment, {x = y} + {x <> y}.
Proof.
  decide equality; try apply (option_dec bytes_dec); try apply (option_dec N.eq_dec).
  decide equality; try apply (option_dec bytes_dec); try apply bytes_dec; try apply value_dec.
  apply (list_eq_dec bytes_dec).
Defined.
Definition message_dec : forall x y : message, {x = y} + {x <> y}.
Proof.
  decide equality; try apply (option_dec bytes_dec); try apply (option_dec N.eq_dec); try apply bytes_dec; try apply value_dec.
  - apply option_dec, (list_eq_dec attachment_dec).
  - apply list_eq_dec. decide equality; [apply value_dec | apply bytes_dec].
  - apply option_dec, (list_eq_dec bytes_dec).
Defined.
Definition metadata_dec : forall x y : unpack_metadata, {x = y} + {x <> y}.
Proof.
  decide equality; try apply (option_dec bytes_dec); try apply bool_dec; try (apply option_dec; decide equality; fail).
  - apply option_dec, from_prior_dec.
  - apply option_dec, (list_eq_dec bytes_dec).
Defined.

(** src/jwe/parse.rs:17-19 and src/jws/parse.rs:13-15: parse *)
Definition parse_jwe (s : bytes) : res parsed_jwe := let? j := jwe_from_str s in jwe_parse real j.
Definition parse_jws (s : bytes) : res parsed_jws := let? j := jws_from_str s in jws_parse j.
(** The call of the verify_didcomm_* tests, e.g. src/jwe/parse.rs:850-855 *)
Definition parse_verify_jwe (s : bytes) : res parsed_jwe := let? p := parse_jwe s in verify_didcomm real p.

(** FromJwk::from_jwk(..).expect(..) in the tests. *)
Definition jwk_text (a : kalg) (s : bytes) : res rkey :=
  let? v := from_json (to_value (fparse real) max_depth) s in
  match real_from_jwk a v with Some k => Ok k | None => Panic end.
(** src/jws/verify.rs:325-336: _verify *)
Definition verify_text (a : kalg) (kid key msg : bytes) : res bool :=
  let? k := jwk_text a key in
  let? p := parse_jws msg in
  jws_verify real p kid a k.
(** src/jws/verify.rs:338-345: _verify_compact *)
Definition verify_compact_text (a : kalg) (key msg : bytes) : res bool :=
  let? k := jwk_text a key in
  let? p := parse_compact msg in
  compact_verify real p a k.
(** src/jwe/decrypt.rs:964-988: _decrypt *)
Definition decrypt_text (ce : cenc) (d : kdf) (a : kalg) (sender : option (bytes * bytes)) (recipient : bytes * bytes)
  (msg : bytes) : res bytes :=
  let? s := match sender with
            | None => Ok None
            | Some (kid, k) => let? k := jwk_text a k in Ok (Some (kid, k))
            end in
  let? k := jwk_text a (snd recipient) in
  let? p := parse_jwe msg in
  jwe_decrypt real ce d a p s (fst recipient) k.

(** The fields of a JSON object; the tests unwrap. *)
Definition object_of (msg : bytes) : list (bytes * value) :=
  match from_json (to_value (fparse real) max_depth) msg with Ok (VObj l) => l | _ => [] end.
(** src/test_vectors/common.rs:7-12 *)
Definition update_field (msg field v : bytes) : bytes := print (VObj (btree_insert field (VStr v) (object_of msg))).
(** src/test_vectors/common.rs:14-19 *)
Definition remove_field (msg field : bytes) : bytes :=
  print (VObj (filter (fun kv => negb (beq (fst kv) field)) (object_of msg))).
Definition on_protected (f : bytes -> bytes) (msg : bytes) : bytes :=
  match amap_get (B "protected") (object_of msg) with
  | Some (VStr p) => match b64dec p with Some t => update_field msg (B "protected") (b64enc (f t)) | None => [] end
  | _ => []
  end.
(** src/test_vectors/common.rs:21-42 *)
Definition update_protected_field (msg field v : bytes) : bytes := on_protected (fun t => update_field t field v) msg.
(** src/test_vectors/common.rs:44-63 *)
Definition remove_protected_field (msg field : bytes) : bytes := on_protected (fun t => remove_field t field) msg.

(** The resolvers and the call of src/message/unpack/mod.rs:2091-2110 and 2146-2167 *)
Definition bob_env : handler := test_env "bob" [ALICE_DID_DOC; BOB_DID_DOC; CHARLIE_DID_DOC] BOB_SECRETS.
Definition unpack_as (env : handler) (msg : bytes) : res (message * unpack_metadata) :=
  match run env (unpack real (S (List.length msg)) msg default_unpack_options) with Some r => r | None => Panic end.
(** src/message/unpack/mod.rs:2091-2111: _verify_unpack *)
Definition unpacked (msg : bytes) (m : message) (md : unpack_metadata) : bool :=
  match unpack_as bob_env msg with
  | Ok (m', md') => (if message_dec m' m then true else false) && (if metadata_dec md' md then true else false)
  | _ => false
  end.
(** src/message/unpack/mod.rs:2146-2168: _verify_unpack_returns_error *)
Definition unpack_err (msg : bytes) : option errkind := err_of (unpack_as bob_env msg).

(** assert_eq! on the debug output of two key pairs, as in src/utils/did.rs:552 *)
Definition same_key (r : res (kalg * rkey)) (k : kalg * option rkey) : bool :=
  match r, k with
  | Ok (a, k), (a', Some k') =>
      kalg_eqb a a' && beq (bs (rk_pub k)) (bs (rk_pub k'))
      && match rk_sec k, rk_sec k' with
         | None, None => true
         | Some x, Some y => beq (bs x) (bs y)
         | _, _ => false
         end
  | _, _ => false
  end.
Definition pair_dec : forall x y : bytes * bytes, {x = y} + {x <> y}.
Proof. decide equality; apply bytes_dec. Defined.
