(** What the recipient of an authcrypt envelope can write without the sender: an
    envelope under the sender's name, made from the recipient's own secret keys and the
    sender's public key. *)
From Verif.Model Require Import Prelude Utf8 Base64 Json Serde DidDoc Crypto Keys Effects Jws Jwe Message FromPrior Pack Routing Unpack.
From Verif.Spec Require Import Small Events World.

Section Deny.
Context (C : crypto).

(** The content key wrapped for each own key: the key agreement as the receiving side
    computes it, from the ephemeral key in the header. *)
Fixpoint self_wrapped (ka : kalg) (jwk : value) (fpub : key C) (from apv tag cek : bytes) (mine : list (bytes * key C)) : option (list recipient) :=
  match mine with
  | [] => Some []
  | (kid, s) :: l =>
      match from_jwk C ka jwk with
      | None => None
      | Some epk =>
          match ecdh_1pu C ka epk fpub s (B "ECDH-1PU+A256KW") from apv tag true with
          | None => None
          | Some kw =>
              match kw_wrap C kw cek, self_wrapped ka jwk fpub from apv tag cek l with
              | Some w, Some rcs => Some (mkRc kid (b64enc w) :: rcs)
              | _, _ => None
              end
          end
      end
  end.

(** An envelope from [from], whose public key is [fpub], to the holder of the secret
    keys [mine], with content [pt]; [e1], [e2] and [e3] are the random bytes used for
    the content key, the ephemeral key and the nonce. *)
Definition self_written (ka : kalg) (from : bytes) (fpub : key C) (mine : list (bytes * key C)) (pt e1 e2 e3 : bytes) : option bytes :=
  match cek_gen C CA256CbcHs512 e1, key_gen C ka e2 with
  | Some cek, Some epk =>
      match to_jwk_public C ka epk with
      | Some jwk =>
          let apv := sha256 C (join (B ".") (sort (map fst mine))) in
          let header := b64enc (print (jwe_header_tree
            (mkPH (Some (B "application/didcomm-encrypted+json")) Ecdh1puA256kw A256cbcHs512 (Some from)
                  (Some (b64enc from)) (b64enc apv) jwk))) in
          let iv := nonce_gen C CA256CbcHs512 e3 in
          match aead_enc C CA256CbcHs512 cek iv header pt with
          | Some (ct, tag) =>
              match self_wrapped ka jwk fpub from apv tag cek mine with
              | Some rcs => Some (print (jwe_tree (mkJwe header rcs (b64enc iv) (b64enc ct) (b64enc tag))))
              | None => None
              end
          | None => None
          end
      | None => None
      end
  | _, _ => None
  end.

(** The secret keys [mine] are those held for the key ids [kids]. *)
Definition held_keys (own : bytes -> option secret) (ka : kalg) (kids : list bytes) (mine : list (bytes * key C)) : Prop :=
  Forall2 (fun kid r => fst r = kid /\ exists sec, own kid = Some sec /\ sec_key_pair C sec = Ok (ka, snd r)) kids mine.

(** All key ids are keyAgreement keys of one document. *)
Definition agreement_keys (dir : bytes -> option diddoc) (kids : list bytes) : Prop :=
  exists did doc, dir did = Some doc /\ incl kids (doc_key_agreement doc).
(** [fpub] is the key [from] of some document. *)
Definition sender_public (dir : bytes -> option diddoc) (ka : kalg) (from : bytes) (fpub : key C) : Prop :=
  exists did doc, dir did = Some doc /\ publishes C doc_key_agreement doc from ka fpub.

(** The random bytes were drawn for [use]. *)
Definition drawn (tr : list event) (use : rand_use) (e : bytes) : Prop := In (Ev (ORandom use) e) tr.

(** What the authcrypt layer of [m] carries: the message, or the message signed. *)
Definition carried_text (tr : list event) (m : message) (sign_by : option bytes) (pt : bytes) : Prop :=
  match sign_by with
  | None => pt = message_text m
  | Some s => exists tr0 kid, incl tr0 tr /\ exec (pack_signed C m s) tr0 (Ok (pt, kid))
  end.
End Deny.
