(** Whom the remaining calls may ask, and what their errors say: pack_plaintext,
    pack_signed, FromPrior::pack, FromPrior::unpack and wrap_in_forward. *)
From Verif.Model Require Import Prelude Json DidDoc Crypto Keys Effects Message FromPrior.
From Verif.Spec Require Import Small Events Packing Conc Asked Blame.

(** Only DIDs in [dids] are resolved, only keys that [seeks] allows after the calls so far
    are looked for and only secrets that were reported are fetched; randomness is drawn
    only if [draws]. *)
Definition asks_only (dids : bytes -> Prop) (seeks : list event -> list bytes -> Prop) (draws : Prop) (tr : list event) : Prop :=
  forall t1 c r t2, tr = t1 ++ Ev c r :: t2 ->
  match c with
  | OResolve did => dids did
  | OFindSecrets ids => seeks t1 ids
  | OGetSecret id => exists ids found, seeks t1 ids /\ reported t1 ids found /\ In id found
  | ORandom _ => draws
  end.
Definition no_keys (h : list event) (ids : list bytes) : Prop := False.

(** The rotation token of a message. *)
Definition prior_dids (m : message) (did : bytes) : Prop := exists jwt, msg_from_prior m = Some jwt /\ token_names jwt did.
(** The authentication keys of [s], a DID or the id of one key. *)
Definition signing_keys (s : bytes) (h : list event) (ids : list bytes) : Prop :=
  exists did doc, did_part s did /\ resolved h did doc /\ auth_wanted s doc ids.
(** The authentication keys of the DID that is rotated from, or the one asked for. *)
Definition issuer_keys (p : from_prior) (kid : option bytes) (h : list event) (ids : list bytes) : Prop :=
  exists doc, resolved h (fp_iss p) doc
    /\ match kid with
       | None => ids = doc_authentication doc
       | Some k => ids = [k] /\ url_of (fp_iss p) k /\ In k (doc_authentication doc)
       end.

(** Why a call may end with an error of kind [k] after the calls [tr], when it has to find
    the keys that [names] says and refuses its arguments as [refuses] says. *)
Definition call_blames (names : (diddoc -> list bytes) -> bytes -> Prop) (refuses : list event -> Prop)
  (tr : list event) (k : errkind) : Prop :=
  raised tr k \/
  match k with
  | DIDNotResolved => exists did, last_call tr (Ev (OResolve did) (Ok None))
  | DIDUrlNotFound => exists use arg did doc, names use arg /\ did_part arg did /\ resolved tr did doc /\ lacks use doc arg
  | SecretNotFound =>
      (exists ids, last_call tr (Ev (OFindSecrets ids) (Ok []))) \/ (exists id, last_call tr (Ev (OGetSecret id) (Ok None)))
  | IllegalArgument => refuses tr \/ multibase_key_seen tr
  | IoError | NoCompatibleCrypto => False
  | Malformed | InvalidState | Unsupported => True
  end.
(** Errors are true, and answers that leave no way on are reported. *)
Definition errors_true {X} names refuses (tr : list event) (x : res X) : Prop :=
  (forall k, x = Err k -> call_blames names refuses tr k)
  /\ forall e k, In e tr -> ends_pack e k -> x = Err k.

Inductive prior_keys (m : message) : (diddoc -> list bytes) -> bytes -> Prop :=
| pk_token jwt kid : msg_from_prior m = Some jwt -> token_key jwt kid -> prior_keys m doc_authentication kid.
Inductive signed_keys (m : message) (s : bytes) : (diddoc -> list bytes) -> bytes -> Prop :=
| sk_signer : signed_keys m s doc_authentication s
| sk_token use kid : prior_keys m use kid -> signed_keys m s use kid.
Inductive kid_keys (kid : option bytes) : (diddoc -> list bytes) -> bytes -> Prop :=
| kk_here k : kid = Some k -> kid_keys kid doc_authentication k.
Inductive token_keys (jwt : bytes) : (diddoc -> list bytes) -> bytes -> Prop :=
| tk_here kid : token_key jwt kid -> token_keys jwt doc_authentication kid.
Inductive hop_keys (keys : list bytes) : (diddoc -> list bytes) -> bytes -> Prop :=
| hk_here k : In k keys -> hop_keys keys doc_key_agreement k.
(** The key id given does not belong to the DID that is rotated from. *)
Definition foreign_kid (p : from_prior) (kid : option bytes) : Prop := exists k, kid = Some k /\ ~ url_of (fp_iss p) k.
