(** Recipients that try to change an authenticated envelope for the other recipients. *)
From Verif.Model Require Import Prelude Utf8 Base64 Json Serde DidDoc Crypto Keys Effects Jws Jwe Message FromPrior Pack Routing Unpack.
From Verif.Spec Require Import Small Codec Events World Text.

Section Insider.
Context (C : crypto).
(** [sealed cek tag t]: the sender encrypted [t] with the content key [cek], which gave
    the tag [tag].  Every recipient of that envelope knows [cek]. *)
Variable sealed : bytes -> bytes -> bytes -> Prop.

(** Under keys agreed on between the sender key [from], as published in this execution,
    a secret that this execution has seen, and a tag, only content keys are wrapped that the
    sender used to make that tag.  (Nobody else can derive such a key but the recipient.) *)
Definition only_wrapped (tr : list event) (from : bytes) : Prop :=
  forall did doc ka fk kid sec k epk alg apu apv tag kw w c cek,
    url_of did from -> resolved tr did doc -> publishes C doc_key_agreement doc from ka fk ->
    held tr kid sec -> sec_key_pair C sec = Ok (ka, k) ->
    ecdh_1pu C ka epk fk k alg apu apv tag true = Some kw ->
    kw_unwrap C kw w = Some c -> cek_import C CA256CbcHs512 c = Some cek ->
    exists t, sealed cek tag t.

(** The content encryption commits to the text: even who knows the key finds no other text
    for the tag, whatever nonce, header and ciphertext are used. *)
Definition tag_commits : Prop :=
  forall cek tag t iv aad ct t', sealed cek tag t -> aead_dec C CA256CbcHs512 cek iv aad (ct ++ tag) = Some t' -> t' = t.
End Insider.

(** The primitives with another key wrapping. *)
Definition with_wrap (C : crypto) (w : bytes -> bytes -> option bytes) : crypto := {|
  key := key C; from_jwk := from_jwk C; to_jwk_public := to_jwk_public C; x25519_from_secret := x25519_from_secret C;
  x25519_public_bytes := x25519_public_bytes C; x25519_secret_bytes := x25519_secret_bytes C; key_gen := key_gen C;
  key_sign := key_sign C; key_verify := key_verify C; ecdh_es := ecdh_es C; ecdh_1pu := ecdh_1pu C;
  kw_wrap := w; kw_unwrap := kw_unwrap C; cek_gen := cek_gen C; cek_import := cek_import C; nonce_gen := nonce_gen C;
  aead_enc := aead_enc C; aead_dec := aead_dec C; sha256 := sha256 C; fparse := fparse C |}.

(** [w] wraps as [C] does under every key agreed on without a sender key... *)
Definition es_agrees (C : crypto) (w : bytes -> bytes -> option bytes) : Prop :=
  forall ka epk r apv kw cek, ecdh_es C ka epk r (B "ECDH-ES+A256KW") [] apv false = Some kw -> w kw cek = kw_wrap C kw cek.
(** ... and, under every key agreed on with a sender key and a tag, the content keys with which
    [t] was encrypted into that tag. *)
Definition pu_agrees (C : crypto) (w : bytes -> bytes -> option bytes) (t : bytes) : Prop :=
  forall ka epk sk r kid apv cek iv aad ct tag kw, aead_enc C CA256CbcHs512 cek iv aad t = Some (ct, tag) ->
    ecdh_1pu C ka epk sk r (B "ECDH-1PU+A256KW") kid apv tag false = Some kw -> w kw cek = kw_wrap C kw cek.
