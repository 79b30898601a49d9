(** DID documents that change. *)
From Verif.Model Require Import Prelude DidDoc Crypto Keys Effects Message Unpack.
From Verif.Spec Require Import Small Events World.

Section Later.
Context (C : crypto) (own : bytes -> option secret) (dir dir' : bytes -> option diddoc).
(** What [dir] publishes as the key [kid] is still published in [dir']. *)
Definition still_published (rel : diddoc -> list bytes) (kid : bytes) : Prop :=
  forall did doc a k, url_of did kid -> dir did = Some doc -> publishes C rel doc kid a k ->
    exists doc', dir' did = Some doc' /\ publishes C rel doc' kid a k.
(** Who we are is unchanged: a DID with a key of ours still has one, one without still
    has none. *)
Definition still_ours : Prop :=
  forall did doc, ~ In "#"%char did -> dir did = Some doc ->
    exists doc', dir' did = Some doc' /\ (holds_one own (doc_key_agreement doc) <-> holds_one own (doc_key_agreement doc')).
(** The keys that the metadata name are still published. *)
Definition keys_stay (md : unpack_metadata) : Prop :=
  (forall kid, um_encrypted_from_kid md = Some kid -> still_published doc_key_agreement kid)
  /\ (forall kid, um_sign_from md = Some kid \/ um_from_prior_issuer_kid md = Some kid -> still_published doc_authentication kid).
End Later.

(** A document to which keys were added, without changing the entry of any key. *)
Definition grown (doc doc' : diddoc) : Prop :=
  incl (doc_key_agreement doc) (doc_key_agreement doc') /\ incl (doc_authentication doc) (doc_authentication doc')
  /\ forall id vm, first_with (fun v => vm_id v = id) (doc_verification_method doc) vm ->
                   first_with (fun v => vm_id v = id) (doc_verification_method doc') vm.
(** All documents are grown, and none was given a key of ours. *)
Definition grown_for (own : bytes -> option secret) (dir dir' : bytes -> option diddoc) : Prop :=
  forall did doc, dir did = Some doc -> exists doc', dir' did = Some doc' /\ grown doc doc'
    /\ forall kid, In kid (doc_key_agreement doc') -> In kid (doc_key_agreement doc) \/ own kid = None.
