(** What sender keys of authcrypt envelopes are used for. *)
From Verif.Model Require Import Prelude Utf8 Base64 Json Serde DidDoc Crypto Keys Effects Jws Jwe Message FromPrior Pack Routing Unpack.
From Verif.Spec Require Import Small Codec Events World Text.

(** [t] is what pack_encrypted encrypts for the message [m]: its text, or a signed
    envelope with that text. *)
Definition sealed_text (m : message) (t : bytes) : Prop :=
  t = plain_text m \/ exists kid a sg, utf8 kid = true /\ alg_name a /\ t = jws_text (plain_text m) kid a sg.

Section Sealed.
Context (C : crypto).
(** Nothing opens as an authcrypt envelope from the key [from], as it was published in
    this execution, with a secret that this execution has seen, but the texts made for
    messages in [msgs]. *)
Definition only_sealed (tr : list event) (from : bytes) (msgs : message -> Prop) : Prop :=
  forall did doc ka fk kid sec k j h t,
    url_of did from -> resolved tr did doc -> publishes C doc_key_agreement doc from ka fk ->
    held tr kid sec -> sec_key_pair C sec = Ok (ka, k) ->
    opened C CA256CbcHs512 ka j h (Some (from, fk)) kid k t ->
    exists m, msgs m /\ sealed_text m t.
End Sealed.
