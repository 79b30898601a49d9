(** Modified envelopes. *)
From Verif.Model Require Import Prelude Base64 Json Crypto Keys Effects DidDoc Jws Jwe.
From Verif.Spec Require Import Small Events.

Section Tamper.
Context (C : crypto).
(** [j], with the plaintext [pt], is all that was encrypted with the content key
    [cek], and the AEAD opens nothing else under that key. *)
Definition only_envelope (cek : bytes) (ce : cenc) (j : jwe) (pt : bytes) : Prop :=
  forall ce' iv aad c p, aead_dec C ce' cek iv aad c = Some p ->
    ce' = ce /\ p = pt /\ aad = jwe_protected j /\ b64dec (jwe_iv j) = Some iv
    /\ exists ct tag, b64dec (jwe_ciphertext j) = Some ct /\ b64dec (jwe_tag j) = Some tag /\ c = ct ++ tag.

(** The envelopes agree, up to the encoding of the nonce and the place where the
    ciphertext ends and the tag begins. *)
Definition same_sealed (j j' : jwe) : Prop :=
  jwe_protected j' = jwe_protected j /\ b64dec (jwe_iv j') = b64dec (jwe_iv j)
  /\ exists ct tag ct' tag', b64dec (jwe_ciphertext j) = Some ct /\ b64dec (jwe_tag j) = Some tag
       /\ b64dec (jwe_ciphertext j') = Some ct' /\ b64dec (jwe_tag j') = Some tag' /\ ct' ++ tag' = ct ++ tag.

(** The secrets fetched give no other content key for [j'] than [cek]. *)
Definition only_key (tr : list event) (j' : jwe) (h' : jwe_header) (sender : option (bytes * key C)) (cek : bytes) : Prop :=
  forall kid sec ce ka k cek', held tr kid sec -> sec_key_pair C sec = Ok (ka, k) -> content_key C ce ka j' h' sender kid k cek' -> cek' = cek.
End Tamper.
