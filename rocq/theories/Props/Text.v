(** C57: what is written, byte by byte. *)
From Verif.Model Require Import Prelude Utf8 Base64 Json Serde DidDoc Crypto Keys Effects Jws Jwe Message FromPrior Pack Routing Unpack.
From Verif.Spec Require Import Codec Small Events Toy World Text.
From Verif.Proofs Require Import Lib TextP PackP SigningP ToyP.
From Verif.Props Require Import RoundTrip.

(** C57.  JSON is written without white space, members in the given order, strings with
    the escapes of RFC 8259 that are needed and no others, numbers without leading zeros. *)
Theorem C57_json : forall v t, json_text v t <-> t = print v.
Proof. intros v t. split; [apply json_text_fun|intros ->; apply json_text_print]. Qed.
Print Assumptions C57_json.
Example C57_json_case : json_text (VObj [(B "k", VArr [VNum (NegInt 12); VStr (ascii_of_nat 1 :: B "a/""")]); (B "k", VNull)])
  (B "{""k"":[-12,""\u0001a/\""""],""k"":null}").
Proof. apply C57_json. vm_compute. reflexivity. Qed.

(** C57.  A plaintext message. *)
Theorem C57_plaintext : forall C m tr t, exec (pack_plaintext C m) tr (Ok t) -> t = plain_text m.
Proof. intros C m tr t H. apply pack_plaintext_inv in H as [-> _]. apply message_written. Qed.
Print Assumptions C57_plaintext.

(** C57.  A signed envelope; the key of the secret is used with the algorithm that is named. *)
Theorem C57_signed : forall C m by_ tr t kid, exec (pack_signed C m by_) tr (Ok (t, kid)) ->
  exists sec ka k st a sg, In (Ev (OGetSecret kid) (Ok (Some sec))) tr /\ sec_key_pair C sec = Ok (ka, k) /\ signs_with ka st a
    /\ key_sign C ka st k (b64enc (jws_header_text a) ++ B "." ++ b64enc (plain_text m)) = Some sg /\ t = jws_text (plain_text m) kid a sg.
Proof. exact signed_written. Qed.
Print Assumptions C57_signed.

(** C57.  A rotation token. *)
Theorem C57_token : forall C p ik tr t kid, exec (from_prior_pack C p ik) tr (Ok (t, kid)) ->
  exists sec ka k st a sg, In (Ev (OGetSecret kid) (Ok (Some sec))) tr /\ sec_key_pair C sec = Ok (ka, k) /\ signs_with ka st a
    /\ key_sign C ka st k (b64enc (token_header_text kid a) ++ B "." ++ b64enc (prior_text p)) = Some sg /\ t = token_text (prior_text p) kid a sg.
Proof. exact token_written. Qed.
Print Assumptions C57_token.
Example C57_case :
  (exists tr t, exec (pack_plaintext toy rich_msg) tr (Ok t)
     /\ t = B "{""id"":""id-1"",""typ"":""application/didcomm-plain+json"",""type"":""https://example.org/hello"",""body"":{""text"":""hi \""bob\""""},""from"":""did:ex:alice"",""to"":[""did:ex:bob""],""thid"":""t"",""lang"":""en"",""created_time"":1700000000,""attachments"":[{""data"":{""base64"":""qq""},""id"":""a1""}]}")
  /\ (exists tr t kid, exec (pack_signed toy rich_msg (B "did:ex:alice")) tr (Ok (t, kid)) /\ kid = B "did:ex:alice#e")
  /\ (exists tr t kid, exec (from_prior_pack toy (fpb_new (B "did:ex:alice") (B "did:ex:bob")) None) tr (Ok (t, kid)) /\ kid = B "did:ex:alice#e").
Proof.
  split; [|split].
  - exists (trace (toy_env toy_docs sec_alice) (pack_plaintext toy rich_msg)). eexists. split; [|reflexivity].
    assert (E : run (toy_env toy_docs sec_alice) (pack_plaintext toy rich_msg) = Ok (plain_text rich_msg)) by (vm_compute; reflexivity).
    pose proof (run_exec (toy_env toy_docs sec_alice) (pack_plaintext toy rich_msg)) as H. rewrite E in H. exact H.
  - assert (E : kid_of (run (toy_env toy_docs sec_alice) (pack_signed toy rich_msg (B "did:ex:alice"))) = Some (B "did:ex:alice#e")) by (vm_compute; reflexivity).
    destruct (alice_gets _ _ _ E) as (tr & r & [R _] & F). destruct r as [[t k]| |]; cbn in F; try discriminate F. exists tr, t, k. split; [exact R|]. now apply some_inj in F.
  - assert (E : kid_of (run (toy_env toy_docs sec_alice) (from_prior_pack toy (fpb_new (B "did:ex:alice") (B "did:ex:bob")) None)) = Some (B "did:ex:alice#e")) by (vm_compute; reflexivity).
    destruct (alice_gets _ _ _ E) as (tr & r & [R _] & F). destruct r as [[t k]| |]; cbn in F; try discriminate F. exists tr, t, k. split; [exact R|]. now apply some_inj in F.
Qed.
