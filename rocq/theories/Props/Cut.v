(** Messages that were cut off. *)
From Verif.Model Require Import Prelude Utf8 Base64 Json Serde DidDoc Crypto Keys Effects Jws Jwe Message FromPrior Pack Routing Unpack.
From Verif.Spec Require Import Small Events Packing World Grammar Cut Toy.
From Verif.Proofs Require Import Lib GrammarP Errs CutP CutU.
From Verif.Props Require Import Unpack.

(** C104.  Take any text that unpack accepts and cut it off anywhere before its last character that
    is not white space: unpack rejects the rest with InvalidState and asks nobody.  The exception is a
    plain message with two custom headers, one named like a member of an encrypted and one like a
    member of a signed message. *)
Theorem C104_cut_off_partial : forall C fuel fuel' t r o o' tr tr' x m md,
  exec (unpack C fuel' (t ++ r) o') tr' (Some (Ok (m, md))) -> ~ ws r ->
  (um_encrypted md = false -> um_non_repudiation md = false -> ~ both_names m) ->
  exec (unpack C (S fuel) t o) tr x -> tr = [] /\ x = Some (Err InvalidState).
Proof. exact beginning_rejected. Qed.
Print Assumptions C104_cut_off_partial.
(** C104.  Texts written by pack_plaintext, pack_signed and pack_encrypted have nothing after their
    last brace: losing a single character is enough. *)
Theorem C104_packed_partial : forall C fuel fuel' t r o o' tr tr' x m m' md,
  packed_as C m' (t ++ r) -> r <> [] -> exec (unpack C fuel' (t ++ r) o') tr' (Some (Ok (m, md))) ->
  (um_encrypted md = false -> um_non_repudiation md = false -> ~ both_names m) ->
  exec (unpack C (S fuel) t o) tr x -> tr = [] /\ x = Some (Err InvalidState).
Proof. exact packed_beginning. Qed.
Print Assumptions C104_packed_partial.
(** C104.  A text that is no JSON is reported as InvalidState only if it is the beginning of a JSON
    text, so the kind tells a text that ended too early from one that is wrong. *)
Theorem C104_only_cut_off : forall C fuel t o tr,
  ~ json_syntax t -> exec (unpack C (S fuel) t o) tr (Some (Err InvalidState)) -> cut_off t.
Proof. exact eof_cut_off. Qed.
Print Assumptions C104_only_cut_off.
(** All beginnings of Alice's signed message, of an encrypted one and of a plain one. *)
Definition beginnings (text : bytes) : list bytes := map (fun n => firstn n text) (seq 0 (List.length text)).
Definition all_cut (text : bytes) : bool :=
  forallb (fun t => match err_part (bob_reads t default_unpack_options) with Some InvalidState => true | _ => false end) (beginnings text).
Example C104_case : all_cut toy_signed = true /\ all_cut (message_text toy_msg) = true
  /\ err_part (bob_reads (firstn 30 (message_text toy_msg) ++ B "x") default_unpack_options) <> None.
Proof. vm_compute. repeat split; discriminate. Qed.

(** Numbers of more than 309 digits are out of the range of f64 unless an exponent makes them smaller. *)
Definition ranged : crypto := {|
  key := key toy; from_jwk := from_jwk toy; to_jwk_public := to_jwk_public toy; x25519_from_secret := x25519_from_secret toy;
  x25519_public_bytes := x25519_public_bytes toy; x25519_secret_bytes := x25519_secret_bytes toy; key_gen := key_gen toy;
  key_sign := key_sign toy; key_verify := key_verify toy; ecdh_es := ecdh_es toy; ecdh_1pu := ecdh_1pu toy; kw_wrap := kw_wrap toy;
  kw_unwrap := kw_unwrap toy; cek_gen := cek_gen toy; cek_import := cek_import toy; nonce_gen := nonce_gen toy; aead_enc := aead_enc toy;
  aead_dec := aead_dec toy; sha256 := sha256 toy;
  fparse := fun t => if existsb (Ascii.eqb "e") t then Some (B "1.5") else if List.length t <? 310 then Some (B "1e300") else None |}.
Definition long_start : bytes :=
  B "{""id"":""1"",""type"":""t"",""typ"":""application/didcomm-plain+json"",""protected"":5,""payload"":5,""body"":{""n"":15" ++ repeat "0"%char 310.
Definition long_end : bytes := B "e-311}}".
(** C104.  With such headers the beginning of an accepted text can be reported as Malformed: the
    number it ends with is out of range. *)
Theorem C104_cut_off_refuted : exists C fuel t r o tr m md,
  exec (unpack C fuel (t ++ r) o) tr (Some (Ok (m, md))) /\ ~ ws r /\ exec (unpack C fuel t o) [] (Some (Err Malformed)).
Proof.
  destruct (run (toy_env [] []) (unpack ranged 1 (long_start ++ long_end) default_unpack_options)) as [[[m md]|k|]|] eqn:R;
    [|vm_compute in R; discriminate R..].
  exists ranged, 1, long_start, long_end, default_unpack_options, (trace (toy_env [] []) (unpack ranged 1 (long_start ++ long_end) default_unpack_options)), m, md.
  split; [rewrite <- R; apply run_exec|]. split.
  - intros W. inversion W as [|? ? I]; subst. cbn in I. intuition discriminate.
  - assert (T : trace (toy_env [] []) (unpack ranged 1 long_start default_unpack_options) = []) by (vm_compute; reflexivity).
    assert (E : run (toy_env [] []) (unpack ranged 1 long_start default_unpack_options) = Some (Err Malformed)) by (vm_compute; reflexivity).
    rewrite <- T, <- E. apply run_exec.
Qed.
Print Assumptions C104_cut_off_refuted.
