(** Modified envelopes. *)
From Verif.Model Require Import Prelude Utf8 Base64 Json Serde DidDoc Crypto Keys Effects Jws Jwe Message FromPrior Pack Routing Unpack.
From Verif.Spec Require Import Codec Small Events Toy Tamper.
From Verif.Proofs Require Import Lib UnpackFacts TamperP.

(** C53.  With an AEAD that opens nothing but the one envelope made with a content
    key, an anoncrypt envelope accepted with that key has the same protected header,
    nonce, ciphertext and tag, and its plaintext is the one that was encrypted.
    Missing: the place where ciphertext and tag meet, and the spelling of the base64
    texts (see the refutation below). *)
Theorem C53_anoncrypt_partial : forall C cek ce j pt fuel text' o tr m md j' h',
  only_envelope C cek ce j pt ->
  exec (unpack C fuel text' o) tr (Some (Ok (m, md))) -> envelope C text' j' h' -> ph_alg h' = EcdhEsA256kw ->
  only_key C tr j' h' None cek ->
  same_sealed j j' /\ exists alg, anon_opened C tr (uo_all_keys o) text' j' alg pt /\ enc_of (ph_enc h') ce alg.
Proof. exact tamper_anon. Qed.
Print Assumptions C53_anoncrypt_partial.
(** The same for authcrypt. *)
Theorem C53_authcrypt_partial : forall C cek ce j pt fuel text' o tr m md j' h',
  only_envelope C cek ce j pt ->
  exec (unpack C fuel text' o) tr (Some (Ok (m, md))) -> envelope C text' j' h' -> ph_alg h' = Ecdh1puA256kw ->
  (forall from did doc ka fk, announces h' (Some from) -> url_of did from -> resolved tr did doc -> publishes C doc_key_agreement doc from ka fk ->
     only_key C tr j' h' (Some (from, fk)) cek) ->
  same_sealed j j' /\ exists from, auth_opened C tr (uo_all_keys o) text' j' from pt /\ um_encrypted_from_kid md = Some from /\ ce = CA256CbcHs512.
Proof. exact tamper_auth. Qed.
Print Assumptions C53_authcrypt_partial.

(** ** A concrete case: an AEAD that opens one envelope only *)
Definition lock (aad iv x pt : bytes) : crypto := {|
  key := key toy; from_jwk := from_jwk toy; to_jwk_public := to_jwk_public toy; x25519_from_secret := x25519_from_secret toy;
  x25519_public_bytes := x25519_public_bytes toy; x25519_secret_bytes := x25519_secret_bytes toy; key_gen := key_gen toy;
  key_sign := key_sign toy; key_verify := key_verify toy; ecdh_es := ecdh_es toy; ecdh_1pu := ecdh_1pu toy;
  kw_wrap := kw_wrap toy; kw_unwrap := kw_unwrap toy; cek_gen := cek_gen toy; cek_import := cek_import toy; nonce_gen := nonce_gen toy;
  aead_enc := aead_enc toy;
  aead_dec := fun ce k iv' aad' x' =>
    match ce with CXC20P => if beq k (B "cek") && (beq iv' iv && (beq aad' aad && beq x' x)) then Some pt else None | _ => None end;
  sha256 := sha256 toy; fparse := fparse toy |}.
Definition msg0 : message := mb_new (B "1") (B "t") (VObj []).
Definition text0 : bytes := Eval vm_compute in
  text_of (run (toy_env toy_docs sec_alice) (pack_encrypted toy msg0 (B "did:ex:med1") None None (mkPO false false None None AuthA256cbcHs512 AnonXc20p))).
Definition j0 : jwe := Eval vm_compute in match jwe_from_str text0 with Ok j => j | _ => mkJwe [] [] [] [] [] end.
Definition get (o : option bytes) : bytes := match o with Some x => x | None => [] end.
Definition ct0 : bytes := Eval vm_compute in get (b64dec (jwe_ciphertext j0)).
Definition tag0 : bytes := Eval vm_compute in get (b64dec (jwe_tag j0)).
Definition pt0 : bytes := Eval vm_compute in message_text msg0.
Definition locked : crypto := lock (jwe_protected j0) (B "iv") (ct0 ++ tag0) pt0.
Definition hb0 : bytes := Eval vm_compute in get (b64dec (jwe_protected j0)).
Definition h0 : jwe_header := Eval vm_compute in
  match b64dec (jwe_protected j0) with
  | Some b => match from_json (de_jwe_header toy) b with Ok h => h | _ => mkPH None EcdhEsA256kw Xc20P None None [] VNull end
  | None => mkPH None EcdhEsA256kw Xc20P None None [] VNull
  end.
(** The last byte of the ciphertext goes to the tag. *)
Definition j1 : jwe := Eval vm_compute in
  mkJwe (jwe_protected j0) (jwe_recipients j0) (jwe_iv j0) (b64enc (firstn (List.length ct0 - 1) ct0)) (b64enc (skipn (List.length ct0 - 1) ct0 ++ tag0)).
Definition text1 : bytes := Eval vm_compute in print (jwe_tree j1).
(** The nonce with base64 padding. *)
Definition j2 : jwe := Eval vm_compute in mkJwe (jwe_protected j0) (jwe_recipients j0) (jwe_iv j0 ++ B "=") (jwe_ciphertext j0) (jwe_tag j0).
Definition text2 : bytes := Eval vm_compute in print (jwe_tree j2).
Definition med : handler := toy_env toy_docs sec_med1.
Definition md0 : unpack_metadata := mkUM true false false true false None (Some [B "did:ex:med1#x"]) None None None (Some AnonXc20p) None None None.
Definition tr0 : list event :=
  [Ev (OFindSecrets [B "did:ex:med1#x"]) (Ok [B "did:ex:med1#x"]); Ev (OGetSecret (B "did:ex:med1#x")) (Ok (Some (sec_jwk "did:ex:med1#x" KX25519 "m1")))].
Lemma locked_only : only_envelope locked (B "cek") CXC20P j0 pt0.
Proof.
  intros ce iv aad c p H. change (aead_dec locked ce (B "cek") iv aad c)
    with (match ce with CXC20P => if beq (B "cek") (B "cek") && (beq iv (B "iv") && (beq aad (jwe_protected j0) && beq c (ct0 ++ tag0))) then Some pt0 else None | _ => None end) in H.
  destruct ce; try discriminate H. rewrite beq_refl in H. cbn [andb] in H.
  destruct (beq iv (B "iv")) eqn:E1; [|discriminate H]. destruct (beq aad (jwe_protected j0)) eqn:E2; [|discriminate H]. destruct (beq c (ct0 ++ tag0)) eqn:E3; [|discriminate H].
  cbn [andb] in H. injection H as <-. apply beq_eq in E1, E2, E3. rewrite E1, E2, E3. clear.
  split; [reflexivity|]. split; [reflexivity|]. split; [reflexivity|]. split; [vm_compute; reflexivity|].
  exists ct0, tag0. split; [vm_compute; reflexivity|]. split; [vm_compute; reflexivity|reflexivity].
Qed.
Lemma locked_runs text : run med (unpack locked 1 text default_unpack_options) = Some (Ok (msg0, md0)) ->
  Lib.trace med (unpack locked 1 text default_unpack_options) = tr0 ->
  exec (unpack locked 1 text default_unpack_options) tr0 (Some (Ok (msg0, md0))).
Proof. intros <- <-. apply run_exec. Qed.
(** "Any modification of an envelope is rejected": false. *)
Theorem C53_tampering_refuted : exists C cek ce j pt o tr m md text j' h' text2 j2,
  only_envelope C cek ce j pt /\ jwe_from_str text = Ok j'
  /\ envelope C text j' h' /\ envelope C text2 j2 h'
  /\ exec (unpack C 1 text o) tr (Some (Ok (m, md))) /\ b64dec (jwe_ciphertext j') <> b64dec (jwe_ciphertext j) /\ b64dec (jwe_tag j') <> b64dec (jwe_tag j)
  /\ exec (unpack C 1 text2 o) tr (Some (Ok (m, md))) /\ jwe_iv j2 <> jwe_iv j.
Proof.
  exists locked, (B "cek"), CXC20P, j0, pt0, default_unpack_options, tr0, msg0, md0, text1, j1, h0, text2, j2.
  split; [exact locked_only|]. split; [vm_compute; reflexivity|].
  split. { split; [vm_compute; reflexivity|]. exists hb0. split; vm_compute; reflexivity. }
  split. { split; [vm_compute; reflexivity|]. exists hb0. split; vm_compute; reflexivity. }
  split. { apply locked_runs; vm_compute; reflexivity. }
  split; [vm_compute; discriminate|]. split; [vm_compute; discriminate|].
  split. { apply locked_runs; vm_compute; reflexivity. }
  vm_compute. discriminate.
Qed.
Print Assumptions C53_tampering_refuted.
Example C53_case : only_envelope locked (B "cek") CXC20P j0 pt0
  /\ exec (unpack locked 1 text1 default_unpack_options) tr0 (Some (Ok (msg0, md0))) /\ envelope locked text1 j1 h0 /\ ph_alg h0 = EcdhEsA256kw
  /\ only_key locked tr0 j1 h0 None (B "cek")
  /\ run med (unpack locked 1 (print (jwe_tree (mkJwe (jwe_protected j0) (jwe_recipients j0) (jwe_iv j0) (b64enc (B "x" ++ ct0)) (jwe_tag j0)))) default_unpack_options)
     = Some (Err Malformed).
Proof.
  split; [exact locked_only|]. split. { apply locked_runs; vm_compute; reflexivity. }
  split. { split; [vm_compute; reflexivity|]. exists hb0. split; vm_compute; reflexivity. }
  split; [reflexivity|]. split; [|vm_compute; reflexivity].
  intros kid sec ce ka k cek' H S (rc & ek & epk & apv & tag & kw & c & F & E & J & V & T & K & U & I).
  destruct H as [H|[H|[]]]; [discriminate H|].
  apply (f_equal (fun e => match e with Ev (OGetSecret i) (Ok (Some s)) => Some (i, s) | _ => None end)) in H. cbv beta iota in H. injection H as <- <-.
  assert (S' : sec_key_pair locked (sec_jwk "did:ex:med1#x" KX25519 "m1") = Ok (KX25519, B "m1")) by (vm_compute; reflexivity).
  rewrite S in S'. injection S' as -> ->.
  destruct F as (l1 & l2 & F & _ & _). destruct l1 as [|r [|? ?]]; try discriminate F.
  injection F as F _. subst rc. vm_compute in E. injection E as <-. vm_compute in J. injection J as <-. vm_compute in V. injection V as <-. vm_compute in K. injection K as <-.
  vm_compute in U. injection U as <-. vm_compute in I. injection I as <-. reflexivity.
Qed.
