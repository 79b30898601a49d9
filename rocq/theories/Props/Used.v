(** Which packed messages can be read: those whose keys are all known under their ids. *)
From Verif.Model Require Import Prelude Utf8 Base64 Json Serde DidDoc Crypto Keys Effects Jws Jwe Message FromPrior Pack Routing Unpack.
From Verif.Spec Require Import Small Codec Events Toy World.
From Verif.Proofs Require Import Lib UnpackInv RoundP ToyP UsedP.

(** C94.  Nothing is assumed about which keys a document lists: DID documents may list
    keys of other DIDs.  A message that was encrypted without a mediator is read by the
    holder of a recipient key exactly if the recipient keys belong to one DID
    ([together]) and the sender key and the signing key are listed in the document of
    the DID in their own id ([known]).  Key ids with escapes are in C37. *)
Theorem C94_readable : forall C pair dir own own' m to from sign_by po tr text pm fuel o tr' x,
  lawful C pair -> secrets_match C pair dir own -> secrets_match C pair dir own' -> message_fits C m ->
  exec (pack_encrypted C m to from sign_by po) tr (Ok (text, pm)) -> Forall (answers dir own) tr -> pm_service pm = None ->
  holds_one own' (pm_to_kids pm) -> (from = None -> sign_by = None -> kept dir own' o m) ->
  Forall key_id_ok (pm_to_kids pm) -> (forall k, pm_from_kid pm = Some k -> key_id_ok k) -> (forall k, pm_sign_by_kid pm = Some k -> key_id_ok k) ->
  exec (unpack C (S fuel) text o) tr' x -> Forall (answers dir own') tr' ->
  ((exists md, x = Some (Ok (m, md))) <->
   together (pm_to_kids pm) /\ (forall k, pm_from_kid pm = Some k -> known dir doc_key_agreement k)
   /\ forall k, pm_sign_by_kid pm = Some k -> known dir doc_authentication k)
  /\ forall m' md, x = Some (Ok (m', md)) -> m' = m.
Proof. intros C pair dir own own' m to from sign_by po tr text pm fuel o tr' x L. now apply (readable_iff C pair L dir own). Qed.
Print Assumptions C94_readable.
(** Likewise a signed message, and a rotation token. *)
Theorem C94_signed_readable : forall C pair dir own own' m by_ tr text kid fuel o tr' x,
  lawful C pair -> secrets_match C pair dir own -> message_fits C m ->
  exec (pack_signed C m by_) tr (Ok (text, kid)) -> Forall (answers dir own) tr -> key_id_ok kid ->
  exec (unpack C (S fuel) text o) tr' x -> Forall (answers dir own') tr' ->
  ((exists md, x = Some (Ok (m, md))) <-> known dir doc_authentication kid).
Proof. intros C pair dir own own' m by_ tr text kid fuel o tr' x L. now apply (signed_readable_iff C pair L dir own). Qed.
Print Assumptions C94_signed_readable.
Theorem C94_token_readable : forall C pair dir own own' p ik tr jwt kid tr' r,
  lawful C pair -> secrets_match C pair dir own -> prior_fits p ->
  exec (from_prior_pack C p ik) tr (Ok (jwt, kid)) -> Forall (answers dir own) tr -> key_id_ok kid ->
  exec (from_prior_unpack C jwt) tr' r -> Forall (answers dir own') tr' ->
  (r = Ok (p, kid) <-> known dir doc_authentication kid).
Proof. intros C pair dir own own' p ik tr jwt kid tr' r L. now apply (token_readable_iff C pair L dir own). Qed.
Print Assumptions C94_token_readable.

(** Mix lists a key of their own and one of the key service did:ex:svc; Out lists only
    keys of that service, whose own document has no authentication key. *)
Definition doc_mix : diddoc :=
  mkDoc (B "did:ex:mix") [B "did:ex:mix#a"; B "did:ex:svc#b"] [] [vm_jwk "did:ex:mix#a" KX25519 "ma"; vm_jwk "did:ex:svc#b" KX25519 "sb"] [].
Definition doc_out : diddoc :=
  mkDoc (B "did:ex:out") [B "did:ex:svc#b"] [B "did:ex:svc#e"] [vm_jwk "did:ex:svc#b" KX25519 "sb"; vm_jwk "did:ex:svc#e" KEd25519 "se"] [].
Definition doc_svc : diddoc :=
  mkDoc (B "did:ex:svc") [B "did:ex:svc#b"] [] [vm_jwk "did:ex:svc#b" KX25519 "sb"; vm_jwk "did:ex:svc#e" KEd25519 "se"] [].
Definition used_docs : list diddoc := [doc_mix; doc_out; doc_svc; doc_bob].
Definition used_secs : list secret :=
  [sec_jwk "did:ex:mix#a" KX25519 "ma"; sec_jwk "did:ex:svc#b" KX25519 "sb"; sec_jwk "did:ex:svc#e" KEd25519 "se"] ++ sec_bob.
Definition used_env : handler := toy_env used_docs used_secs.
Definition used_msg : message := mb_new (B "1") (B "t") (VObj []).
Definition used_opts (protect : bool) : pack_options := mkPO protect false None None AuthA256cbcHs512 AnonXc20p.
Definition used_round (to : bytes) (from sign : option bytes) (protect : bool) : option (list bytes) * option (res bytes) :=
  let r := run used_env (pack_encrypted toy used_msg to from sign (used_opts protect)) in
  (match r with Ok (_, pm) => Some (pm_to_kids pm) | _ => None end,
   match run used_env (unpack toy 1 (text_of r) default_unpack_options) with
   | Some (Ok (m, _)) => Some (Ok (msg_id m)) | Some (Err e) => Some (Err e) | Some Panic => Some Panic | None => None end).
Lemma used_world : lawful toy toy_pair /\ secrets_match toy toy_pair (dir_of used_docs) (own_of used_secs).
Proof. split; [exact toy_lawful|]. apply match_check_ok. vm_compute. reflexivity. Qed.
Example C94_case :
  (** Packed for Mix, for both keys, and unreadable with either. *)
  used_round (B "did:ex:mix") None None false = (Some [B "did:ex:mix#a"; B "did:ex:svc#b"], Some (Err Malformed))
  (** Packed for Out, whose key is another DID's, and read. *)
  /\ used_round (B "did:ex:out") None None false = (Some [B "did:ex:svc#b"], Some (Ok (B "1")))
  (** Sent by Out with the key of the service, which lists it: read. *)
  /\ used_round (B "did:ex:bob") (Some (B "did:ex:out")) None true = (Some [B "did:ex:bob#x1"; B "did:ex:bob#x2"], Some (Ok (B "1")))
  (** Signed by Out with a key of the service, which does not list it: not read. *)
  /\ used_round (B "did:ex:bob") None (Some (B "did:ex:out")) true = (Some [B "did:ex:bob#x1"; B "did:ex:bob#x2"], Some (Err DIDUrlNotFound))
  /\ together [B "did:ex:svc#b"] /\ known (dir_of used_docs) doc_key_agreement (B "did:ex:svc#b")
  /\ ~ together [B "did:ex:mix#a"; B "did:ex:svc#b"] /\ ~ known (dir_of used_docs) doc_authentication (B "did:ex:svc#e").
Proof.
  split; [vm_compute; reflexivity|]. split; [vm_compute; reflexivity|]. split; [vm_compute; reflexivity|]. split; [vm_compute; reflexivity|].
  assert (U : url_of (B "did:ex:svc") (B "did:ex:svc#b")) by (exists (B "b"); split; [reflexivity|]; cbn; intuition discriminate).
  assert (K : key_id_ok (B "did:ex:svc#b")) by (split; [reflexivity|]; repeat constructor; discriminate).
  split; [exists (B "did:ex:svc"); constructor; [split; assumption|constructor]|].
  split; [split; [exact K|]; exists (B "did:ex:svc"), doc_svc; split; [exact U|]; split; [reflexivity|left; reflexivity]|].
  split.
  - intros (did & F). inversion F as [|? ? [U1 _] F']; subst. inversion F' as [|? ? [U2 _] _]; subst.
    apply url_of_some in U1, U2. vm_compute in U1, U2. congruence.
  - intros (_ & did & doc & U1 & D & I). apply url_of_some in U1. vm_compute in U1. injection U1 as <-. vm_compute in D. injection D as <-. destruct I.
Qed.
