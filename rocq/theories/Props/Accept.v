(** Every valid text is accepted by its recipient, whoever made it. *)
From Verif.Model Require Import Prelude Utf8 Base64 Json Serde DidDoc Crypto Keys Effects Jws Jwe Message FromPrior Pack Routing Unpack.
From Verif.Spec Require Import Codec Small Events Toy World Accept.
From Verif.Proofs Require Import Lib SmallP NoPanic RoundP ToyP RejectP AcceptP UnpackInv RoundP.
From Verif.Props Require Import RoundTrip.

(** C60.  A text that carries [m] to the owner of [own], [n] times forwarded to
    themselves, is unpacked to [m], with the metadata of its layers, in every execution
    with the directory [dir]. *)
Theorem C60_valid_accepted : forall C dir own o n text m md fuel tr x,
  valid C dir own o n text m md -> n < fuel ->
  exec (unpack C fuel text o) tr x -> Forall (answers dir own) tr ->
  x = Some (Ok (m, md)).
Proof. intros C dir own o n text m md fuel tr x V LT H A. exact (safe_exec _ _ _ _ _ (valid_accepted C dir own o n text m md fuel V LT) H A). Qed.
Print Assumptions C60_valid_accepted.
(** Likewise a rotation token by itself. *)
Theorem C60_token_accepted : forall C dir own jwt p kid tr x,
  rotation_valid C dir jwt p kid -> exec (from_prior_unpack C jwt) tr x -> Forall (answers dir own) tr -> x = Ok (p, kid).
Proof. intros C dir own jwt p kid tr x V H A. exact (safe_exec _ _ _ _ _ (rotation_accept C dir own jwt p kid V) H A). Qed.
Print Assumptions C60_token_accepted.

(** An authcrypt envelope as this library never writes it: no typ and no skid, other
    members, other order, white space. *)
Definition hdr1 : bytes :=
  B "{ ""enc"": ""A256CBC-HS512"", ""x-other"": [1], ""apu"": """ ++ b64enc (B "did:ex:alice#x") ++ B """, ""epk"": "
  ++ print (toy_jwk KX25519 (B "e")) ++ B ", ""apv"": """ ++ b64enc (B "did:ex:bob#x1") ++ B """, ""alg"": ""ECDH-1PU+A256KW"" }".
Definition msg1 : bytes := B "{ ""body"": {}, ""type"": ""https://example.org/hello"",
  ""typ"": ""application/didcomm-plain+json"", ""id"": ""7"" }".
Definition tag1 : bytes := toy_tag (B "cek") (B "iv") (b64enc hdr1).
Definition kw1 : bytes := match toy_kdf [B "X"; B "e"; B "ax"; B "bx1"; B "ECDH-1PU+A256KW"; B "did:ex:alice#x"; B "did:ex:bob#x1"; tag1] with Some k => k | None => [] end.
Definition text1 : bytes :=
  B "{ ""tag"": """ ++ b64enc tag1 ++ B """, ""ciphertext"": """ ++ b64enc (rev msg1) ++ B """, ""unprotected"": {}, ""iv"": """ ++ b64enc (B "iv")
  ++ B """, ""recipients"": [ { ""encrypted_key"": """ ++ b64enc (kw1 ++ B "cek") ++ B """, ""header"": { ""kid"": ""did:ex:bob#x1"" } } ], ""protected"": """
  ++ b64enc hdr1 ++ B """ }".
Definition j1 : jwe := mkJwe (b64enc hdr1) [mkRc (B "did:ex:bob#x1") (b64enc (kw1 ++ B "cek"))] (b64enc (B "iv")) (b64enc (rev msg1)) (b64enc tag1).
Definition h1 : jwe_header := mkPH None Ecdh1puA256kw A256cbcHs512 None (Some (b64enc (B "did:ex:alice#x"))) (b64enc (B "did:ex:bob#x1")) (toy_jwk KX25519 (B "e")).
Definition m1 : message := mb_new (B "7") (B "https://example.org/hello") (VObj []).
Definition md1 : unpack_metadata := metadata None (Some ([B "did:ex:bob#x1"], B "did:ex:alice#x")) None None.
Lemma text1_envelope : envelope toy text1 j1 h1.
Proof. split; [vm_compute; reflexivity|]. exists hdr1. split; vm_compute; reflexivity. Qed.
Example C60_case : valid toy dir bob default_unpack_options 0 text1 m1 md1
  /\ toy_unpack sec_bob text1 default_unpack_options = Some (Ok (m1, md1)).
Proof.
  split; [|vm_compute; reflexivity].
  exists false, None, (Some ([B "did:ex:bob#x1"], B "did:ex:alice#x")), None, None, text1, msg1, msg1.
  split. { constructor. right. exists j1, h1, (B "did:ex:bob#x1"), (Some (B "did:ex:alice#x")).
    split; [apply text1_envelope|]. split; [discriminate|]. split; vm_compute; reflexivity. }
  split.
  { exists j1. split; [|reflexivity].
    exists h1, (B "did:ex:bob#x1"), (B "did:ex:alice"), doc_alice, KX25519, (B "ax").
    split; [apply text1_envelope|]. split; [reflexivity|]. split; [reflexivity|]. split; [vm_compute; reflexivity|].
    split; [reflexivity|]. split; [left; reflexivity|]. split; [vm_compute; reflexivity|].
    split. { apply apv_for_spec. reflexivity. }
    split. { split; [discriminate|]. exists (B "did:ex:bob"). constructor; [|constructor]. exists (B "x1"). split; [reflexivity|]. cbn. intuition discriminate. }
    split; [vm_compute; reflexivity|].
    split. { exists (B "x"). split; [reflexivity|]. cbn. intuition discriminate. }
    split; [reflexivity|].
    split. { split; [left; reflexivity|]. exists (vm_jwk "did:ex:alice#x" KX25519 "ax"). split; [|vm_compute; reflexivity].
      exists [], (tl (doc_verification_method doc_alice)). split; [reflexivity|]. split; [reflexivity|]. intros y []. }
    split; [left; reflexivity|].
    split. { exists (B "did:ex:bob#x1"), (sec_jwk "did:ex:bob#x1" KX25519 "bx1"). split; [left; reflexivity|vm_compute; reflexivity]. }
    intros kid sec [<-|[]] O. vm_compute in O. injection O as <-. exists KX25519, (B "bx1"). split; [vm_compute; reflexivity|]. split; [reflexivity|].
    exists (B "cek"), (B "iv"), (rev msg1), tag1. split; [|repeat split; vm_compute; reflexivity].
    exists (mkRc (B "did:ex:bob#x1") (b64enc (kw1 ++ B "cek"))), (kw1 ++ B "cek"), (B "e"), (B "did:ex:bob#x1"), tag1, kw1, (B "cek").
    split. { exists [], []. split; [reflexivity|]. split; [reflexivity|]. intros y []. }
    repeat split; vm_compute; reflexivity. }
  split; [split; [reflexivity|vm_compute; reflexivity]|].
  split; [vm_compute; reflexivity|]. split; [reflexivity|]. split; reflexivity.
Qed.

(** A token with another order of members and an unknown one. *)
Definition hd2 : bytes := b64enc (B "{""kid"": ""did:ex:alice#e"", ""alg"": ""EdDSA"", ""typ"": ""JWT"", ""x"": 1}").
Definition pl2 : bytes := b64enc (B "{""sub"": ""did:ex:alice2"", ""iss"": ""did:ex:alice"", ""nbf"": 3}").
Definition jwt2 : bytes := hd2 ++ "."%char :: pl2 ++ "."%char :: b64enc (B "Eeae|" ++ hd2 ++ "."%char :: pl2).
Definition prior2 : from_prior := mkFP (B "did:ex:alice") (B "did:ex:alice2") None None (Some 3%N) None None.
Example C60_token_case : rotation_valid toy dir jwt2 prior2 (B "did:ex:alice#e").
Proof.
  assert (ND : forall x, ~ In "."%char (b64enc x)) by (intros; apply b64enc_no_dot).
  do 5 eexists. exists (B "did:ex:alice"), doc_alice, KEd25519, (B "ae"), SigEdDSA, SignEdDSA. do 2 eexists.
  split; [reflexivity|]. do 3 (split; [apply ND|]). split; [vm_compute; reflexivity|]. split; [vm_compute; reflexivity|].
  split; [reflexivity|]. split; [reflexivity|]. split; [left; reflexivity|].
  split. { exists (B "e"). split; [reflexivity|]. cbn. intuition discriminate. }
  split; [reflexivity|].
  split. { split; [left; reflexivity|]. exists (vm_jwk "did:ex:alice#e" KEd25519 "ae"). split; [|vm_compute; reflexivity].
    exists (firstn 2 (doc_verification_method doc_alice)), (skipn 3 (doc_verification_method doc_alice)). split; [reflexivity|]. split; [reflexivity|].
    intros y [<-|[<-|[]]]; discriminate. }
  split; [vm_compute; reflexivity|]. split; [vm_compute; reflexivity|]. repeat split; vm_compute; reflexivity.
Qed.
