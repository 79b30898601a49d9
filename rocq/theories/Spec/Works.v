(** When packing should succeed: primitives that work, documents that resolve and
    have usable keys, secrets that are held. *)
From Verif.Model Require Import Prelude Utf8 Base64 Json Serde DidDoc Crypto Keys Effects Jws Jwe Message FromPrior Pack Routing Unpack.
From Verif.Spec Require Import Small Events World Packing Accept.

(** Besides encryption, the primitives that need a key with its secret work. *)
Definition working (C : crypto) (pair : kalg -> key C -> key C -> Prop) : Prop :=
  sealing_works C
  /\ (forall a e epk v p ps s alg apu apv tag, agreement a -> key_gen C a e = Some epk -> from_jwk C a v = Some p -> pair a ps s ->
        ecdh_1pu C a epk s p alg apu apv tag false <> None)
  /\ (forall ja a st sa p s m, alg_row ja a st sa -> pair a p s -> key_sign C a st s m <> None).

Definition signing (a : kalg) : Prop := a = KEd25519 \/ a = KP256 \/ a = KK256.

Section Works.
Context (C : crypto) (dir : bytes -> option diddoc) (own : bytes -> option secret).

(** A rotation that pack_plaintext lets through. *)
Definition rotation_ready (m : message) : Prop :=
  forall jwt, msg_from_prior m = Some jwt -> exists p kid, rotation_valid C dir jwt p kid
    /\ did_text (fp_iss p) /\ ~ In "#"%char (fp_iss p) /\ did_text (fp_sub p) /\ ~ In "#"%char (fp_sub p) /\ fp_iss p <> fp_sub p
    /\ url_of (fp_iss p) kid /\ forall f, msg_from m = Some f -> f = fp_sub p.

(** The secret of one of the asked authentication keys is held, and the held ones are
    for signatures. *)
Definition can_sign (doc : diddoc) (asked : list bytes) : Prop :=
  holds_one own asked /\ forall k, In k asked -> own k <> None -> exists a, on_curve doc a k /\ signing a.
Definition signer_ready (by_ : bytes) : Prop :=
  exists did doc asked, did_text by_ /\ did_part by_ did /\ dir did = Some doc /\ auth_wanted by_ doc asked /\ can_sign doc asked.

(** All listed keys are described, the first recognised one agrees on keys, and the
    ones on its curve can be read. *)
Definition recipient_ready (to : bytes) : Prop :=
  exists did doc all k0 ka, did_part to did /\ dir did = Some doc /\ wanted to (doc_key_agreement doc) all /\ described doc all
    /\ first_with (fun k => ~ on_curve doc KUnsupported k) all k0 /\ on_curve doc ka k0 /\ agreement ka
    /\ forall k, In k all -> on_curve doc ka k -> exists p, publishes C doc_key_agreement doc k ka p.

(** All keys are described, the sender holds one that shares an agreement curve with
    one of the recipient's, and no other kind of curve is shared. *)
Definition pair_ready (from to : bytes) : Prop :=
  exists did doc fdid fdoc asked all,
    did_part to did /\ dir did = Some doc /\ did_part from fdid /\ dir fdid = Some fdoc
    /\ wanted from (doc_key_agreement fdoc) asked /\ wanted to (doc_key_agreement doc) all /\ described fdoc asked /\ described doc all
    /\ (exists k, In k asked /\ own k <> None /\ shares fdoc doc all k)
    /\ (forall k k' a, In k asked -> own k <> None -> on_curve fdoc a k -> In k' all -> on_curve doc a k' -> a = KUnsupported \/ agreement a)
    /\ (forall k a, In k all -> on_curve doc a k -> agreement a -> exists p, publishes C doc_key_agreement doc k a p).

(** No mediators, or a route through mediators that can be encrypted for. *)
Definition way_ready (to : bytes) (o : pack_options) : Prop :=
  po_forward o = false \/ route dir to (po_messaging_service o) None
  \/ exists id uri rks, route dir to (po_messaging_service o) (Some (id, uri, rks)) /\ Forall recipient_ready rks.

(** A token that pack accepts. *)
Definition token_ready (p : from_prior) (ik : option bytes) : Prop :=
  did_text (fp_iss p) /\ ~ In "#"%char (fp_iss p) /\ did_text (fp_sub p) /\ ~ In "#"%char (fp_sub p) /\ fp_iss p <> fp_sub p
  /\ exists doc asked, dir (fp_iss p) = Some doc /\ can_sign doc asked
     /\ match ik with
        | None => asked = doc_authentication doc
        | Some kid => url_of (fp_iss p) kid /\ In kid (doc_authentication doc) /\ asked = [kid]
        end.
End Works.
