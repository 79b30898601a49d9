(** Conditions under which claims hold that are false in general. *)
From Verif.Model Require Import Prelude Json DidDoc Crypto Effects Serde Jwe Message Unpack.
From Verif.Spec Require Import Small Events.

(** A key id that begins with [did:] and does not contain that again after a dot. *)
Definition separable (k : bytes) : Prop :=
  (exists r, k = B "did:" ++ r) /\ forall a b, k <> a ++ B ".did:" ++ b.

(** The resolvers did not panic. *)
Definition quiet (e : event) : Prop :=
  match e with
  | Ev (OResolve _) r => r <> Panic
  | Ev (OFindSecrets _) r => r <> Panic
  | Ev (OGetSecret _) r => r <> Panic
  | Ev (ORandom _) _ => True
  end.

(** [delivered C o tr text t]: forwards re-wrapped for us were opened one after the other,
    beginning with [text]; [t] is the text that the last of them carried. *)
Inductive delivered (C : crypto) (o : unpack_options) (tr : list event) : bytes -> bytes -> Prop :=
| delivered_here text : delivered C o tr text text
| delivered_in text j alg pt next v kid found t :
    anon_opened C tr (uo_all_keys o) text j alg pt -> uo_unwrap o = true ->
    forward_to C pt next v -> asked_next tr next (kid :: found) ->
    delivered C o tr (print v) t -> delivered C o tr text t.

(** What two reports on the same message share even if one of them saw more anonymous
    envelopes around it; everything but [re_wrapped] when the message itself was in an
    anonymous envelope. *)
Record same_inside (md md0 : unpack_metadata) : Prop := {
  si_authenticated : um_authenticated md = um_authenticated md0;
  si_non_repudiation : um_non_repudiation md = um_non_repudiation md0;
  si_from_kid : um_encrypted_from_kid md = um_encrypted_from_kid md0;
  si_sign_from : um_sign_from md = um_sign_from md0;
  si_issuer : um_from_prior_issuer_kid md = um_from_prior_issuer_kid md0;
  si_alg_auth : um_enc_alg_auth md = um_enc_alg_auth md0;
  si_sign_alg : um_sign_alg md = um_sign_alg md0;
  si_signed : um_signed_message md = um_signed_message md0;
  si_prior : um_from_prior md = um_from_prior md0;
  si_anon : um_anonymous_sender md0 = true ->
    um_encrypted md = um_encrypted md0 /\ um_anonymous_sender md = um_anonymous_sender md0
    /\ um_encrypted_to_kids md = um_encrypted_to_kids md0 /\ um_enc_alg_anon md = um_enc_alg_anon md0 }.

(** The resolvers [h] say, when asked whether we hold a key of [next], that [found] is held. *)
Definition says_held (h : handler) (next : bytes) (found : list bytes) : Prop :=
  exists ids, h (OFindSecrets ids) = Ok found
    /\ ((exists did, url_of did next) /\ ids = [next]
        \/ ~ In "#"%char next /\ exists doc, h (OResolve next) = Ok (Some doc) /\ ids = doc_key_agreement doc).

(** Two ends of unpacking with the same message, or with the same error. *)
Definition same_end (x y : option (res (message * unpack_metadata))) : Prop :=
  match x, y with
  | Some (Ok (m, md)), Some (Ok (m', md')) => m = m' /\ same_inside md md'
  | Some (Err k), Some (Err k') => k = k'
  | Some Panic, Some Panic => True
  | None, None => True
  | _, _ => False
  end.
