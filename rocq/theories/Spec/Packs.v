(** Exactly when packing succeeds, for a given secrets resolver. *)
From Verif.Model Require Import Prelude Utf8 Base64 Json Serde DidDoc Crypto Keys Effects Jws Jwe Message FromPrior Pack Routing Unpack.
From Verif.Spec Require Import Small Events World Packing Accept Works.

Section Packs.
Context (C : crypto) (dir : bytes -> option diddoc) (own : bytes -> option secret) (find : list bytes -> list bytes).

(** [find] lists those of the asked keys whose secret is held, in some order. *)
Definition finder : Prop := forall ids i, In i (find ids) <-> In i ids /\ exists s, own i = Some s.
(** The resolvers of the world [dir], [own]; asked which of the keys [ids] it has, the
    secrets resolver answers [find ids]. *)
Definition answers_by (e : event) : Prop :=
  match e with Ev (OFindSecrets ids) r => r = Ok (find ids) | _ => answers dir own e end.

(** The key that is found first is one for signatures. *)
Definition signs (doc : diddoc) (asked : list bytes) : Prop :=
  exists k rest a, find asked = k :: rest /\ on_curve doc a k /\ signing a.
Definition signer_fits (by_ : bytes) : Prop :=
  exists did doc asked, did_text by_ /\ did_part by_ did /\ dir did = Some doc /\ auth_wanted by_ doc asked /\ signs doc asked.

(** A token: two different DIDs without key, and a key of the old one that signs. *)
Definition token_fits (p : from_prior) (ik : option bytes) : Prop :=
  did_text (fp_iss p) /\ ~ In "#"%char (fp_iss p) /\ did_text (fp_sub p) /\ ~ In "#"%char (fp_sub p) /\ fp_iss p <> fp_sub p
  /\ exists doc asked, dir (fp_iss p) = Some doc /\ signs doc asked
     /\ match ik with
        | None => asked = doc_authentication doc
        | Some kid => url_of (fp_iss p) kid /\ In kid (doc_authentication doc) /\ asked = [kid]
        end.

(** [k] and a key of [all] are of the same recognised algorithm. *)
Definition common (fdoc doc : diddoc) (all : list bytes) (k : bytes) : Prop :=
  exists a, a <> KUnsupported /\ on_curve fdoc a k /\ exists k', In k' all /\ on_curve doc a k'.
(** The recipient's keys are described; the first of the sender's found keys that has
    its algorithm in common with one of them is for key agreement; the recipient's keys
    of that algorithm can be read. *)
Definition pair_fits (from to : bytes) : Prop :=
  exists did doc fdid fdoc asked all fk ka,
    did_part to did /\ dir did = Some doc /\ did_part from fdid /\ dir fdid = Some fdoc
    /\ wanted from (doc_key_agreement fdoc) asked /\ wanted to (doc_key_agreement doc) all /\ described doc all
    /\ first_with (common fdoc doc all) (find asked) fk /\ on_curve fdoc ka fk /\ agreement ka
    /\ forall k, In k all -> on_curve doc ka k -> exists p, publishes C doc_key_agreement doc k ka p.

(** Everything that pack_encrypted needs. *)
Definition packable (m : message) (to : bytes) (from sign_by : option bytes) (o : pack_options) : Prop :=
  ~ refused m to from sign_by /\ rotation_ready C dir m
  /\ (forall s, sign_by = Some s -> signer_fits s)
  /\ match from with None => recipient_ready C dir to | Some f => pair_fits f to end
  /\ way_ready C dir to o.
End Packs.
