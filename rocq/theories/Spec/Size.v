(** How long packed texts are, in bytes. *)
From Verif.Model Require Import Prelude Utf8 Base64 Json Serde DidDoc Crypto Keys Effects Jws Jwe Message FromPrior Pack Routing Unpack.
From Verif.Spec Require Import Small Codec Events World Text Packing Mediator.

Definition size (s : bytes) : nat := List.length s.
(** Of base64url without padding. *)
Definition b64_size (n : nat) : nat := (4 * n + 2) / 3.
(** Of a JSON string. *)
Definition quoted (s : bytes) : nat := size (print (VStr s)).

(** Content encryption: names, keys, nonces, tags, ciphertexts (RFC 7518 5.2.5 and 5.3,
    draft-irtf-cfrg-xchacha). *)
Definition enc_size (ce : cenc) : nat := match ce with CA256CbcHs512 => 13 | CXC20P => 5 | CA256Gcm => 7 end.
Definition cek_size (ce : cenc) : nat := match ce with CA256CbcHs512 => 64 | _ => 32 end.
Definition nonce_size (ce : cenc) : nat := match ce with CA256CbcHs512 => 16 | CXC20P => 24 | CA256Gcm => 12 end.
Definition tag_size (ce : cenc) : nat := match ce with CA256CbcHs512 => 32 | _ => 16 end.
Definition body_size (ce : cenc) (n : nat) : nat := match ce with CA256CbcHs512 => 16 * (n / 16 + 1) | _ => n end.

(** The primitives give results of these sizes: key wrapping adds 8 bytes (RFC 3394), digests
    have 32, signatures 64; a public JWK takes [epk a] bytes, depending on the curve [a]. *)
Record sized (C : crypto) (epk : kalg -> nat) : Prop := {
  sz_aead : forall ce k n aad pt ct tag, aead_enc C ce k n aad pt = Some (ct, tag) -> size ct = body_size ce (size pt) /\ size tag = tag_size ce;
  sz_cek : forall ce e k, cek_gen C ce e = Some k -> size k = cek_size ce;
  sz_nonce : forall ce e, size (nonce_gen C ce e) = nonce_size ce;
  sz_wrap : forall kw k w, kw_wrap C kw k = Some w -> size w = size k + 8;
  sz_sha : forall x, size (sha256 C x) = 32;
  sz_sign : forall a st k m s, key_sign C a st k m = Some s -> size s = 64;
  sz_epk : forall a e k v, key_gen C a e = Some k -> to_jwk_public C a k = Some v -> size (print v) = epk a }.

(** An envelope of [n] bytes for the keys [kids], [skid] being the key of an authenticated
    sender. *)
Definition header_size (ce : cenc) (skid : option bytes) (epk : nat) : nat :=
  match skid with
  | None => 135 + enc_size ce + epk
  | Some s => 153 + enc_size ce + epk + quoted s + b64_size (size s)
  end.
Definition envelope_size (ce : cenc) (skid : option bytes) (kids : list bytes) (epk n : nat) : nat :=
  64 + b64_size (header_size ce skid epk) + list_sum (map (fun k => 39 + quoted k + b64_size (cek_size ce + 8)) kids)
  + b64_size (nonce_size ce) + b64_size (body_size ce n) + b64_size (tag_size ce).
(** A signed envelope of [n] bytes; the name of the algorithm has 5 bytes or (ES256K) 6. *)
Definition signed_size (kid : bytes) (a n : nat) : nat := 79 + quoted kid + b64_size (50 + a) + b64_size 64 + b64_size n.
(** What is encrypted for the message [m], signed with [skid] or not. *)
Definition inner_size (m : message) (skid : option bytes) (n : nat) : Prop :=
  match skid with
  | None => n = size (plain_text m)
  | Some kid => n = signed_size kid 5 (size (plain_text m)) \/ n = signed_size kid 6 (size (plain_text m))
  end.
Definition anon_cenc (a : anon_alg) : cenc := match a with AnonA256cbcHs512 => CA256CbcHs512 | AnonXc20p => CXC20P | AnonA256gcm => CA256Gcm end.
(** The text for the recipient. *)
Definition packed_size (o : pack_options) (fk : option bytes) (kids : list bytes) (epk n : nat) : nat :=
  match fk with
  | None => envelope_size (anon_cenc (po_enc_alg_anon o)) None kids epk n
  | Some k => let n1 := envelope_size CA256CbcHs512 (Some k) kids epk n in
      if po_protect_sender o then envelope_size (anon_cenc (po_enc_alg_anon o)) None kids epk n1 else n1
  end.
(** A forward message about an envelope of [n] bytes. *)
Definition forward_size (id next : bytes) (headers : list (bytes * value)) (n : nat) : nat :=
  147 + quoted id + quoted next + list_sum (map (fun kv => 2 + quoted (fst kv) + size (print (snd kv))) headers) + n.

(** Key ids in documents are text. *)
Definition text_docs (e : event) : Prop :=
  match e with Ev (OResolve did) (Ok (Some doc)) => Forall (fun k => utf8 k = true) (doc_key_agreement doc) | _ => True end.
