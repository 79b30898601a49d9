(** How long packed texts are. *)
From Verif.Model Require Import Prelude Utf8 Base64 Json Serde DidDoc Crypto Keys Effects Jws Jwe Message FromPrior Pack Routing Unpack.
From Verif.Spec Require Import Codec Small Events Toy World Text Packing Mediator Size.
From Verif.Proofs Require Import Lib ToyP PackP MediatorP SizeP SizeK.
From Verif.Props Require Import RoundTrip.

(** C99.  The length of an encrypted message that is not forwarded: it depends on the length of
    the message, the key ids and the algorithms only. *)
Theorem C99_packed_size : forall C epk m to from sign_by o tr text pm, sized C epk ->
  exec (pack_encrypted C m to from sign_by o) tr (Ok (text, pm)) -> pm_service pm = None ->
  exists ka n, agreement ka /\ inner_size m (pm_sign_by_kid pm) n /\ size text = packed_size o (pm_from_kid pm) (pm_to_kids pm) (epk ka) n.
Proof. intros C epk m to from sb o tr text pm SZ. apply packed_sized. exact SZ. Qed.
Print Assumptions C99_packed_size.
(** A signed message. *)
Theorem C99_signed_size : forall C epk m by_ tr text kid, sized C epk -> exec (pack_signed C m by_) tr (Ok (text, kid)) -> inner_size m (Some kid) (size text).
Proof. intros C epk m by_ tr text kid SZ H. apply (signed_sized C epk SZ) in H as (a & [-> | ->] & E); [left|right]; exact E. Qed.
Print Assumptions C99_signed_size.
(** A layer put around an envelope on its way: a forward message, encrypted. *)
Theorem C99_layer_size : forall C epk headers alg ce d ka ea enc sender rs e1 e2 e3 pt ct tag msg next r tr text, sized C epk ->
  seals C ce d ka ea enc sender rs e1 e2 e3 pt ct tag msg -> Forall (fun k => utf8 k = true) (map fst rs) ->
  exec (wrap_in_forward C msg headers next [r] alg) tr (Ok text) ->
  exists id ka kids, agreement ka /\ In (Ev (ORandom RUuid) id) tr
    /\ size text = envelope_size (anon_cenc alg) None kids (epk ka) (forward_size id next (kept_headers headers) (size msg)).
Proof.
  intros C epk headers alg ce d ka ea enc sender rs e1 e2 e3 pt ct tag msg next r tr text SZ S U H.
  apply wrap_single in H as (t1 & t2 & x & kids & -> & (v & id & V & -> & ->) & H). apply (anoncrypt_size C epk SZ) in H as (ka' & A & E).
  exists id, ka', kids. split; [exact A|]. split; [now left|]. rewrite E, forward_sized. now rewrite (enveloped_size _ _ _ _ (seals_enveloped _ _ _ _ _ _ _ _ _ _ _ _ _ _ _ S) U V).
Qed.
Print Assumptions C99_layer_size.
(** Every envelope makes a text longer by a third, up to a part that does not depend on it. *)
Theorem C99_third : forall ce sk kids epk n, 4 * n <= 3 * envelope_size ce sk kids epk n
  /\ 3 * envelope_size ce sk kids epk n <= 3 * envelope_size ce sk kids epk 0 + 4 * n + 2.
Proof. exact envelope_bounds. Qed.
Print Assumptions C99_third.
(** Messages of one length, packed in the same circumstances, along mediators or not, give
    texts of one length. *)
Theorem C99_same_size : forall C epk m m' to from sign_by o tr text pm text' pm', sized C epk ->
  msg_from_prior m = msg_from_prior m' -> size (plain_text m) = size (plain_text m') -> Forall text_docs tr ->
  exec (pack_encrypted C m to from sign_by o) tr (Ok (text, pm)) -> exec (pack_encrypted C m' to from sign_by o) tr (Ok (text', pm')) ->
  size text = size text' /\ pm = pm'.
Proof. intros C epk m m' to from sb o tr text pm text' pm' SZ P L F H H'. exact (same_size C epk SZ m m' to from sb o tr _ _ P L F H H'). Qed.
Print Assumptions C99_same_size.

(** Primitives with results of these sizes. *)
Definition pad (n : nat) (s : bytes) : bytes := firstn n (s ++ repeat "0"%char n).
Definition regular : crypto := {|
  key := bytes; from_jwk := from_jwk toy; to_jwk_public := to_jwk_public toy; x25519_from_secret := x25519_from_secret toy;
  x25519_public_bytes := x25519_public_bytes toy; x25519_secret_bytes := x25519_secret_bytes toy;
  key_gen := fun _ e => Some (pad 32 e); key_sign := fun a st k m => Some (pad 64 (toy_kalg a ++ toy_sig st ++ k));
  key_verify := key_verify toy; ecdh_es := ecdh_es toy; ecdh_1pu := ecdh_1pu toy;
  kw_wrap := fun _ k => Some (k ++ B "checksum"); kw_unwrap := kw_unwrap toy;
  cek_gen := fun ce e => Some (pad (cek_size ce) e); cek_import := cek_import toy; nonce_gen := fun ce e => pad (nonce_size ce) e;
  aead_enc := fun ce k n aad pt => Some (pad (body_size ce (size pt)) pt, pad (tag_size ce) k);
  aead_dec := aead_dec toy; sha256 := fun x => pad 32 x; fparse := fparse toy |}.
Definition jwk_size (a : kalg) : nat := 69 + size (fst (toy_curve a)) + size (snd (toy_curve a)).
Lemma pad_size n s : size (pad n s) = n.
Proof. unfold pad, size. rewrite firstn_length, app_length, repeat_length. lia. Qed.
Lemma regular_sized : sized regular jwk_size.
Proof.
  split; cbn [regular aead_enc cek_gen nonce_gen kw_wrap sha256 key_sign key_gen to_jwk_public]; intros.
  - injection H as <- <-. rewrite !pad_size. auto.
  - injection H as <-. apply pad_size.
  - apply pad_size.
  - injection H as <-. rewrite size_app. reflexivity.
  - apply pad_size.
  - injection H as <-. apply pad_size.
  - injection H as <-. injection H0 as <-. unfold toy_jwk. rewrite size_obj by discriminate. cbn [map fst snd]. unfold list_sum. cbn [fold_right].
    change (quoted (B "crv")) with 5. change (quoted (B "kty")) with 5. change (quoted (B "x")) with 3. rewrite TextP.print_b64, !size_app, size_b64, pad_size.
    change (b64_size 32) with 43. unfold jwk_size. destruct a; reflexivity.
Qed.
(** A message and another one of the same length; Bob is reached along two mediators. *)
Definition other_msg : message := mb_to (B "did:ex:bob") (mb_from (B "did:ex:alice") (mb_new (B "id-2") (B "https://example.org/adieu") (VObj [(B "text", VStr (B "ok \bob\"))]))).
Definition size_opts (fwd : bool) : pack_options := mkPO true fwd None None AuthA256cbcHs512 AnonA256gcm.
Definition size_run (m : message) (fwd : bool) := pack_encrypted regular m (B "did:ex:bob") (Some (B "did:ex:alice")) (Some (B "did:ex:alice")) (size_opts fwd).
Definition size_env : handler := toy_env toy_docs sec_alice.
Definition sized_packs : list (res (N * pack_metadata)) := Eval vm_compute in
  map (fun p => let? (t, pm) := run size_env p in Ok (N.of_nat (size t), pm)) [size_run toy_msg true; size_run other_msg true; size_run toy_msg false].
Example C99_case : plain_text toy_msg <> plain_text other_msg /\ size (plain_text toy_msg) = size (plain_text other_msg)
  /\ msg_from_prior toy_msg = msg_from_prior other_msg
  /\ exists n n' kids fk sk sm, sized_packs = [Ok (n, mkPM (Some sm) (Some fk) (Some sk) kids); Ok (n, mkPM (Some sm) (Some fk) (Some sk) kids); Ok (n', mkPM None (Some fk) (Some sk) kids)]
     /\ n' = N.of_nat (packed_size (size_opts false) (Some fk) kids (jwk_size KX25519) (signed_size sk 5 (size (plain_text toy_msg)))).
Proof.
  split; [intros E; vm_compute in E; discriminate E|]. split; [vm_compute; reflexivity|]. split; [reflexivity|].
  do 6 eexists. split; [reflexivity|]. vm_compute. reflexivity.
Qed.
(** They are packed with the same calls and answers. *)
Definition text_docs_b (e : event) : bool := match e with Ev (OResolve _) (Ok (Some doc)) => forallb utf8 (doc_key_agreement doc) | _ => true end.
Lemma text_docs_ok tr : forallb text_docs_b tr = true -> Forall text_docs tr.
Proof.
  intros H. rewrite forallb_forall in H. apply Forall_forall. intros [[d|l|i|u] r] I; cbn; auto. destruct r as [[doc|]|k|]; auto.
  specialize (H _ I). cbn in H. rewrite forallb_forall in H. now apply Forall_forall.
Qed.
Example C99_same_case : trace size_env (size_run toy_msg true) = trace size_env (size_run other_msg true) /\ Forall text_docs (trace size_env (size_run toy_msg true)).
Proof. split; [vm_compute; reflexivity|]. apply text_docs_ok. vm_compute. reflexivity. Qed.
