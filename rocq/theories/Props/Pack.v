(** What packing does: argument checks, key selection, envelopes, random values,
    services and forwarding. *)
From Verif.Model Require Import Prelude Utf8 Base64 Json Serde DidDoc Crypto Keys Effects Jws Jwe Message FromPrior Pack Routing Unpack.
From Verif.Spec Require Import Codec Small Events Toy World Text Packing.
From Verif.Proofs Require Import Lib NoPanic RoundP ToyP PackP RouteP HideP.
From Verif.Props Require Import RoundTrip.

Definition bob_did : bytes := B "did:ex:bob".
Definition alice_did : bytes := B "did:ex:alice".

(** C14.  Refused arguments are reported before anything else happens, and nothing
    else is reported that way. *)
Theorem C14_arguments_checked_first : forall C m to from sign_by o tr r, exec (pack_encrypted C m to from sign_by o) tr r ->
  (refused m to from sign_by <-> tr = [] /\ r = Err IllegalArgument).
Proof. intros C m to from sign_by o tr r H. apply pack_refuses in H as [H1 H2]. split; [exact H1|]. intros [A B]; auto. Qed.
Print Assumptions C14_arguments_checked_first.
Example C14_case : refused toy_msg (B "did:ex:carol") None None /\ refused toy_msg bob_did (Some (B "did:ex:bob#x1")) None
  /\ ~ refused toy_msg (B "did:ex:bob#x1") (Some alice_did) None
  /\ run (toy_env toy_docs sec_alice) (pack_encrypted toy toy_msg (B "did:ex:carol") None None default_pack_options) = Err IllegalArgument.
Proof.
  assert (D1 : did_part (B "did:ex:carol") (B "did:ex:carol")) by (right; split; [intros I; cbn in I; intuition discriminate|reflexivity]).
  split; [|split; [|split; [|vm_compute; reflexivity]]].
  - right; right; right; left. exists (B "did:ex:carol"), [bob_did]. split; [exact D1|]. split; [reflexivity|]. intros [E|[]]. discriminate E.
  - do 4 right. exists (B "did:ex:bob#x1"), bob_did, alice_did. split; [reflexivity|]. split.
    + left. exists (B "x1"). split; [reflexivity|]. intros I; cbn in I; intuition discriminate.
    + split; [reflexivity|]. discriminate.
  - destruct (validate_cases toy_msg (B "did:ex:bob#x1") (Some alice_did) None) as [[_ N]|[E _]]; [exact N|]. vm_compute in E. discriminate E.
Qed.

(** C15.  Anonymous encryption is for exactly the keys of the recipient that have the
    algorithm of the first recognised one (the key asked for, when one is), in
    document order; these are reported and the envelope is made for them. *)
Theorem C15_recipient_keys : forall C m to sign_by o tr text pm, exec (pack_encrypted C m to None sign_by o) tr (Ok (text, pm)) ->
  exists did doc ka rs ce enc e1 e2 e3 pt ct tag text1 ds, did_part to did /\ In (Ev (OResolve did) (Ok (Some doc))) tr
    /\ anon_keys C to doc ka (pm_to_kids pm) rs /\ pm_from_kid pm = None /\ enc_of enc ce (po_enc_alg_anon o)
    /\ seals C ce KdfEs ka EcdhEsA256kw enc None rs e1 e2 e3 pt ct tag text1
    /\ onion C ds text1 text /\ (pm_service pm = None -> text = text1).
Proof. exact anon_chooses. Qed.
Print Assumptions C15_recipient_keys.
Example C15_case : exists tr r pm, by_alice (pack_encrypted toy rich_msg bob_did None None anon_opts) tr r
  /\ pm_of r = Some pm /\ pm_to_kids pm = [B "did:ex:bob#x1"; B "did:ex:bob#x2"]
  /\ on_curve doc_bob KP256 (B "did:ex:bob#p") /\ In (B "did:ex:bob#p") (doc_key_agreement doc_bob).
Proof.
  assert (E : exists pm, pm_of (run (toy_env toy_docs sec_alice) (pack_encrypted toy rich_msg bob_did None None anon_opts)) = Some pm
    /\ pm_to_kids pm = [B "did:ex:bob#x1"; B "did:ex:bob#x2"]) by (eexists; vm_compute; auto).
  destruct E as (pm & E & E1). destruct (alice_gets _ _ _ E) as (tr & r & R & F). exists tr, r, pm. repeat split; auto; try apply R.
  - exists (vm_jwk "did:ex:bob#p" KP256 "bp"). split; [|reflexivity]. exists [vm_jwk "did:ex:bob#x1" KX25519 "bx1"]. eexists. split; [reflexivity|].
    split; [reflexivity|]. intros y [<-|[]]. discriminate.
  - cbn. auto.
Qed.

(** C16.  Authenticated encryption: the sender's key is the first of its keys reported
    by the secrets resolver that shares X25519 or P-256 with a recipient key, and the
    envelope is for exactly the recipient keys on that curve. *)
Theorem C16_key_negotiation : forall C m to from sign_by o tr text pm, exec (pack_encrypted C m to (Some from) sign_by o) tr (Ok (text, pm)) ->
  exists did doc fdid fdoc asked found fk sec sk ka rs e1 e2 e3 pt ct tag text1 text2 ds, did_part to did /\ did_part from fdid
    /\ In (Ev (OResolve did) (Ok (Some doc))) tr /\ In (Ev (OResolve fdid) (Ok (Some fdoc))) tr
    /\ In (Ev (OFindSecrets asked) (Ok found)) tr /\ wanted from (doc_key_agreement fdoc) asked
    /\ pm_from_kid pm = Some fk /\ auth_keys C fdoc found to doc ka fk (pm_to_kids pm) rs
    /\ In (Ev (OGetSecret fk) (Ok (Some sec))) tr /\ sec_key_pair C sec = Ok (ka, sk)
    /\ seals C CA256CbcHs512 Kdf1pu ka Ecdh1puA256kw A256cbcHs512 (Some (fk, sk)) rs e1 e2 e3 pt ct tag text1
    /\ (if po_protect_sender o then exists ce enc f1 f2 f3 ct' tag', enc_of enc ce (po_enc_alg_anon o)
             /\ seals C ce KdfEs ka EcdhEsA256kw enc None rs f1 f2 f3 text1 ct' tag' text2
        else text2 = text1)
    /\ onion C ds text2 text /\ (pm_service pm = None -> text = text2).
Proof. exact auth_chooses. Qed.
Print Assumptions C16_key_negotiation.
(** Against a resolver that answers in order, that is the first held key of the document. *)
Theorem C16_first_held_key : forall C dir own fdoc asked found to doc ka fk kids rs tr, auth_keys C fdoc found to doc ka fk kids rs ->
  In (Ev (OFindSecrets asked) (Ok found)) tr -> Forall (answers dir own) tr -> Forall in_order tr ->
  exists all, wanted to (doc_key_agreement doc) all /\ first_with (fun k => own k <> None /\ shares fdoc doc all k) asked fk.
Proof. exact auth_first. Qed.
Print Assumptions C16_first_held_key.
(** No held sender key and recipient key have the same recognised algorithm. *)
Theorem C16_incompatible : forall C dir own m to f o did doc fdid fdoc asked all tr r,
  msg_from_prior m = None -> ~ refused m to (Some f) None ->
  did_part to did -> dir did = Some doc -> did_part f fdid -> dir fdid = Some fdoc ->
  wanted f (doc_key_agreement fdoc) asked -> wanted to (doc_key_agreement doc) all ->
  asked <> [] -> all <> [] -> holds_one own asked -> described fdoc asked -> described doc all ->
  (forall k k' a, In k asked -> own k <> None -> on_curve fdoc a k -> In k' all -> on_curve doc a k' -> a = KUnsupported) ->
  exec (pack_encrypted C m to (Some f) None o) tr r -> Forall (answers dir own) tr -> r = Err NoCompatibleCrypto.
Proof.
  intros C dir own m to f o did doc fdid fdoc asked all tr r MP NR H1 H2 H3 H4 H5 H6 H7 H8 H9 H10 H11 H12 E A.
  exact (safe_exec _ _ _ _ _ (pack_auth_fails C dir own m to f o _ MP NR (auth_incompatible C dir own to f _ _ _ _ did doc fdid fdoc asked all H1 H2 H3 H4 H5 H6 H7 H8 H9 H10 H11 H12)) E A).
Qed.
Print Assumptions C16_incompatible.
Example C16_case : exists tr r pm, by_alice (pack_encrypted toy rich_msg bob_did (Some alice_did) None auth_opts) tr r
  /\ Forall in_order tr /\ pm_of r = Some pm /\ pm_from_kid pm = Some (B "did:ex:alice#x") /\ pm_to_kids pm = [B "did:ex:bob#x1"; B "did:ex:bob#x2"].
Proof.
  assert (E : exists pm, pm_of (run (toy_env toy_docs sec_alice) (pack_encrypted toy rich_msg bob_did (Some alice_did) None auth_opts)) = Some pm
    /\ pm_from_kid pm = Some (B "did:ex:alice#x") /\ pm_to_kids pm = [B "did:ex:bob#x1"; B "did:ex:bob#x2"]) by (eexists; vm_compute; auto).
  destruct E as (pm & E & E1 & E2). eexists _, _, pm. split; [apply alice_runs|]. split; [apply toy_env_in_order|auto].
Qed.
Example C16_incompatible_case : run (toy_env toy_docs [sec_jwk "did:ex:alice#p" KP256 "ap"])
  (pack_encrypted toy rich_msg (B "did:ex:bob#x1") (Some alice_did) None auth_opts) = Err NoCompatibleCrypto.
Proof. vm_compute. reflexivity. Qed.

(** C17.  Signing uses the first key the secrets resolver reports among the signer's
    authentication keys (or exactly the requested one, which must be among them). *)
Theorem C17_signing_key : forall C m by_ tr text kid, exec (pack_signed C m by_) tr (Ok (text, kid)) ->
  exists did doc asked found sec a k alg, did_text by_ /\ did_part by_ did
    /\ In (Ev (OResolve did) (Ok (Some doc))) tr /\ In (Ev (OFindSecrets asked) (Ok found)) tr /\ In (Ev (OGetSecret kid) (Ok (Some sec))) tr
    /\ auth_wanted by_ doc asked /\ hd_error found = Some kid
    /\ sec_key_pair C sec = Ok (a, k) /\ sign_alg_of a = Ok alg /\ jws_sign C (message_text m) kid a k alg = Ok text.
Proof.
  intros C m by_ tr text kid H. apply pack_signed_inv in H as (did & doc & asked & found & sec & a & k & alg & trp & D & DP & -> & AW & HD & KP & SA & _ & J).
  exists did, doc, asked, found, sec, a, k, alg. cbn. auto 20.
Qed.
Print Assumptions C17_signing_key.
Theorem C17_first_held_key : forall C dir own m by_ tr text kid, exec (pack_signed C m by_) tr (Ok (text, kid)) ->
  Forall (answers dir own) tr -> Forall in_order tr ->
  exists did doc asked, did_part by_ did /\ dir did = Some doc /\ auth_wanted by_ doc asked
    /\ first_with (fun k => own k <> None) asked kid /\ In kid (doc_authentication doc).
Proof.
  intros C dir own m by_ tr text kid H A O.
  apply pack_signed_inv in H as (did & doc & asked & found & sec & a & k & alg & trp & D & DP & -> & AW & HD & KP & SA & _ & J).
  rewrite Forall_forall in A, O. assert (A1 := A _ (or_introl eq_refl)). assert (A2 := A _ (or_intror (or_introl eq_refl))). assert (O2 := O _ (or_intror (or_introl eq_refl))).
  cbn in A1, A2, O2. destruct A2 as (fo & E & FO). injection E as <-. destruct O2 as (P & PK). injection A1 as A1. symmetry in A1.
  exists did, doc, asked. pose proof (first_held own P asked found kid PK FO HD) as F. repeat (split; [assumption|]).
  destruct F as (l1 & l2 & E & _). assert (I : In kid asked) by (rewrite E; apply in_or_app; right; now left).
  destruct AW as [[_ ->]|(_ & I' & ->)]; [exact I|]. destruct I as [<-|[]]. exact I'.
Qed.
Print Assumptions C17_first_held_key.
Theorem C17_no_secret : forall C dir own m by_ did doc asked tr r, did_text by_ -> did_part by_ did -> dir did = Some doc -> auth_wanted by_ doc asked ->
  (forall k, In k asked -> own k = None) -> exec (pack_signed C m by_) tr r -> Forall (answers dir own) tr -> r = Err SecretNotFound.
Proof. intros C dir own m by_ did doc asked tr r H1 H2 H3 H4 H5 E A. exact (safe_exec _ _ _ _ _ (pack_signed_none C dir own m by_ did doc asked H1 H2 H3 H4 H5) E A). Qed.
Print Assumptions C17_no_secret.
(** Alice has no secret for her second authentication key. *)
Example C17_case : (exists tr r, by_alice (pack_signed toy rich_msg alice_did) tr r /\ Forall in_order tr /\ kid_of r = Some (B "did:ex:alice#e"))
  /\ run (toy_env toy_docs sec_alice) (pack_signed toy rich_msg (B "did:ex:alice#s")) = Err SecretNotFound
  /\ run (toy_env toy_docs sec_alice) (pack_signed toy rich_msg (B "did:ex:alice#x")) = Err DIDUrlNotFound.
Proof.
  split; [|split; vm_compute; reflexivity]. eexists _, _. split; [apply alice_runs|]. split; [apply toy_env_in_order|]. vm_compute. reflexivity.
Qed.

(** C25.  Inconsistent rotations are not packed. *)
Theorem C25_rotation_checked : forall C m tr,
  (forall text, exec (pack_plaintext C m) tr (Ok text) -> rotation_ok C tr m)
  /\ (forall by_ text kid, exec (pack_signed C m by_) tr (Ok (text, kid)) -> rotation_ok C tr m)
  /\ (forall to from sign_by o text pm, exec (pack_encrypted C m to from sign_by o) tr (Ok (text, pm)) -> rotation_ok C tr m).
Proof.
  intros C m tr. split; [|split].
  - intros text H. apply pack_plaintext_inv in H. tauto.
  - intros by_ text kid H. eapply (written_draws C m (Some by_)). exists kid. split; [exact H|reflexivity].
  - intros to from sign_by o text pm H. eapply rotations; eauto.
Qed.
Print Assumptions C25_rotation_checked.
Definition rotated (iss sub : string) : message :=
  match run (toy_env toy_docs sec_bob) (from_prior_pack toy (fpb_new (B iss) (B sub)) None) with
  | Ok (jwt, _) => mb_from_prior jwt toy_msg
  | _ => toy_msg
  end.
Definition outcome {A} (r : res A) : option errkind := match r with Err k => Some k | _ => None end.
Definition is_ok {A} (r : res A) : bool := match r with Ok _ => true | _ => false end.
Example C25_case : msg_from_prior (rotated "did:ex:bob" "did:ex:alice") <> None
  /\ is_ok (run (toy_env toy_docs sec_alice) (pack_plaintext toy (rotated "did:ex:bob" "did:ex:alice"))) = true
  /\ outcome (run (toy_env toy_docs sec_alice) (pack_plaintext toy (rotated "did:ex:bob" "did:ex:carol"))) = Some Malformed.
Proof. split; [|split]; vm_compute; [discriminate|reflexivity|reflexivity]. Qed.

(** C27.  At most one resolution beyond the recipient's own; what comes out; deeper
    chains (and so cycles) are refused. *)
Theorem C27_chain_bounded : forall to sid tr r, exec (services_chain to sid) tr r ->
  exists did, did_part to did /\ exists x, tr = [Ev (OResolve did) x] \/ exists y uri, did_text uri /\ tr = [Ev (OResolve did) x; Ev (OResolve uri) y].
Proof. exact services_chain_short. Qed.
Print Assumptions C27_chain_bounded.
Theorem C27_chain_faithful : forall dir own to sid did doc tr r, exec (services_chain to sid) tr r -> Forall (answers dir own) tr ->
  did_part to did -> dir did = Some doc ->
  (forall q, route dir to sid q <-> exists chain, r = Ok chain /\ chain_route chain = q)
  /\ (forall id ms, chosen doc sid id ms -> did_text (ms_uri ms) ->
        (dir (ms_uri ms) = None -> r = Err DIDNotResolved)
        /\ forall mdoc, dir (ms_uri ms) = Some mdoc ->
             ((forall s m, In s (doc_service mdoc) -> ~ usable s m) -> r = Err InvalidState)
             /\ forall mid mms, chosen mdoc None mid mms -> did_text (ms_uri mms) -> r = Err InvalidState).
Proof.
  intros dir own to sid did doc tr r H A DP D. destruct (services_chain_total dir own to sid did doc tr r H A DP D) as [H1 H2]. split; [|exact H2].
  intros q. split; [apply H1|]. intros (chain & -> & <-). eapply chain_routed; [eapply services_chain_Ok; eauto|eauto].
Qed.
Print Assumptions C27_chain_faithful.
(** The endpoint of Bob is mediator 1; a mediator whose endpoint is itself is refused. *)
Definition loop_doc : diddoc :=
  mkDoc (B "did:ex:loop") [] [] [] [mkService (B "did:ex:loop#svc") (DIDCommMessaging (mkMS (B "did:ex:loop") None []))].
Example C27_case : (exists m1 b, run (toy_env toy_docs sec_alice) (services_chain bob_did None) = Ok [(B "did:ex:med1#svc", m1); (B "did:ex:bob#svc", b)])
  /\ run (toy_env [loop_doc] []) (services_chain (B "did:ex:loop") None) = Err InvalidState.
Proof. split; [do 2 eexists|]; vm_compute; reflexivity. Qed.

(** C28.  The message is wrapped exactly when forwarding is on and the route has
    routing keys; what is wrapped (or returned) is what packing without forwarding
    gives. *)
Theorem C28_wrapping_decision : forall C dir own m to from sign_by o tr text pm,
  exec (pack_encrypted C m to from sign_by o) tr (Ok (text, pm)) -> Forall (answers dir own) tr ->
  exists tr1 tr2 text1, tr = tr1 ++ tr2
    /\ exec (pack_encrypted C m to from sign_by (no_forward o)) tr1 (Ok (text1, mkPM None (pm_from_kid pm) (pm_sign_by_kid pm) (pm_to_kids pm)))
    /\ if po_forward o then exists q, route dir to (po_messaging_service o) q /\
         match q with
         | Some (id, uri, k :: ks) => pm_service pm = Some (mkSM id uri) /\ exists t1 t2, tr2 = t1 ++ t2 /\ List.length t1 <= 2
             /\ exec (wrap_in_forward C text1 (po_forward_headers o) to (k :: ks) (po_enc_alg_anon o)) t2 (Ok text)
         | _ => pm_service pm = None /\ text = text1
         end
       else pm_service pm = None /\ text = text1 /\ tr2 = [].
Proof. exact pack_decides. Qed.
Print Assumptions C28_wrapping_decision.
Example C28_case : exists tr r pm, by_alice (pack_encrypted toy rich_msg bob_did None None default_pack_options) tr r
  /\ pm_of r = Some pm /\ pm_service pm = Some (mkSM (B "did:ex:bob#svc") (B "http://m1"))
  /\ route dir bob_did None (Some (B "did:ex:bob#svc", B "http://m1", [B "did:ex:med1"; B "did:ex:med2#x"])).
Proof.
  assert (E : exists pm, pm_of (run (toy_env toy_docs sec_alice) (pack_encrypted toy rich_msg bob_did None None default_pack_options)) = Some pm
    /\ pm_service pm = Some (mkSM (B "did:ex:bob#svc") (B "http://m1"))) by (eexists; vm_compute; auto).
  destruct E as (pm & E & E1). destruct (alice_gets _ _ _ E) as (tr & r & R & F). exists tr, r, pm. split; [exact R|]. split; [exact F|]. split; [exact E1|].
  assert (X : exists chain, run (toy_env toy_docs sec_alice) (services_chain bob_did None) = Ok chain
     /\ chain_route chain = Some (B "did:ex:bob#svc", B "http://m1", [B "did:ex:med1"; B "did:ex:med2#x"])) by (eexists; vm_compute; auto).
  assert (DP : did_part bob_did bob_did) by (right; split; [intros I; cbn in I; intuition discriminate|reflexivity]).
  destruct (alice_runs (services_chain bob_did None)) as [RE RA].
  exact (proj2 (proj1 (C27_chain_faithful dir alice bob_did None bob_did doc_bob _ _ RE RA DP eq_refl) _) X).
Qed.

(** C29.  Forward messages are recognised exactly by type, a string [next] in the body
    and a JSON attachment in first position. *)
Theorem C29_forward_parsing : (forall id next headers v, try_parse_forward (forward_message id next headers v) = Some (mkPF next v))
  /\ (forall m pf, try_parse_forward m = Some pf <->
        msg_type m = B "https://didcomm.org/routing/2.0/forward"
        /\ (exists body, msg_body m = VObj body /\ amap_get (B "next") body = Some (VStr (pf_next pf)))
        /\ (exists a l j, msg_attachments m = Some (a :: l) /\ att_data a = AJson (pf_forwarded pf) j)).
Proof. split; [exact forward_parses|exact forward_parsed]. Qed.
Print Assumptions C29_forward_parsing.
Example C29_case : try_parse_forward (forward_message (B "u") bob_did (Some [(B "type", VNull); (B "lang", VStr (B "en"))]) (VObj [(B "a", VNull)]))
  = Some (mkPF bob_did (VObj [(B "a", VNull)])) /\ try_parse_forward toy_msg = None.
Proof. split; vm_compute; reflexivity. Qed.

(** C39.  With protect_sender the text is an ECDH-ES envelope without sender, and is
    determined by recipients, random values and what the content encryption gave. *)
Theorem C39_sender_hidden : forall C m to from sign_by o tr text pm, exec (pack_encrypted C m to (Some from) sign_by o) tr (Ok (text, pm)) ->
  po_protect_sender o = true -> pm_service pm = None ->
  exists ce enc ka rs f1 f2 f3 inner ct tag, seals C ce KdfEs ka EcdhEsA256kw enc None rs f1 f2 f3 inner ct tag text
    /\ map fst rs = pm_to_kids pm
    /\ (exists apv jwk ws iv, apv_for C (map fst rs) apv /\ text = jwe_text (b64enc (
          B "{""typ"":""application/didcomm-encrypted+json"",""alg"":""ECDH-ES+A256KW"",""enc"":" ++ print (VStr (enc_text enc))
          ++ B ",""apv"":""" ++ b64enc apv ++ B """,""epk"":" ++ print jwk ++ B "}")) (combine (pm_to_kids pm) ws) iv ct tag)
    /\ forall inner' text', seals C ce KdfEs ka EcdhEsA256kw enc None rs f1 f2 f3 inner' ct tag text' -> text' = text.
Proof.
  intros C m to from sign_by o tr text pm H PS SM.
  apply auth_chooses in H as (did & doc & fdid & fdoc & asked & found & fk & sec & sk & ka & rs & e1 & e2 & e3 & pt & ct & tag & text1 & text2 & ds & H).
  do 7 destruct H as [_ H]. destruct H as [AK H]. do 3 destruct H as [_ H]. destruct H as [P [_ T]]. rewrite PS in P. rewrite (T SM).
  destruct P as (ce & enc & f1 & f2 & f3 & ct' & tag' & _ & S). exists ce, enc, ka, rs, f1, f2, f3, text1, ct', tag'. split; [exact S|].
  assert (KE : map fst rs = pm_to_kids pm).
  { destruct AK as (all & _ & _ & _ & _ & _ & F). clear - F. induction F as [|k r l l' [E _] F IH]; cbn; congruence. }
  split; [exact KE|split].
  - pose proof S as (cek & epk & jwk & apv & pr & ws & _ & _ & _ & V & -> & _ & _ & ->).
    exists apv, jwk, ws, (nonce_gen C ce f3). split; [exact V|]. rewrite <- KE. reflexivity.
  - intros inner' text' S'. eapply seals_fun; eauto.
Qed.
Print Assumptions C39_sender_hidden.
Example C39_case : exists tr r pm, by_alice (pack_encrypted toy rich_msg bob_did (Some alice_did) None auth_opts) tr r
  /\ pm_of r = Some pm /\ po_protect_sender auth_opts = true /\ pm_service pm = None.
Proof.
  assert (E : exists pm, pm_of (run (toy_env toy_docs sec_alice) (pack_encrypted toy rich_msg bob_did (Some alice_did) None auth_opts)) = Some pm
    /\ pm_service pm = None) by (eexists; vm_compute; auto).
  destruct E as (pm & E & E1). destruct (alice_gets _ _ _ E) as (tr & r & R & F). exists tr, r, pm. auto.
Qed.

(** C40.  Nothing of the message gets into the text beside the content encryption:
    pack another message with a content encryption that gives for it what was given
    for this one, answer all else alike, and the same text comes out.  (When the
    sender is protected, the second encryption, of an envelope, is to be the same.) *)
Theorem C40_plaintext_hidden : forall C m to from sign_by o tr text pm, exec (pack_encrypted C m to from sign_by o) tr (Ok (text, pm)) -> po_forward o = false ->
  exists tr1 tr2 msg, tr = tr1 ++ tr2 /\ written C m sign_by tr1 msg (pm_sign_by_kid pm)
    /\ forall e m' sign_by' tr1' msg' skid', written C m' sign_by' tr1' msg' skid' -> ~ refused m' to from sign_by' ->
      (forall ce k n aad, e ce k n aad msg' = aead_enc C ce k n aad msg) ->
      (po_protect_sender o = true -> forall ce k n aad t, e ce k n aad (B "{""protected""" ++ t) = aead_enc C ce k n aad (B "{""protected""" ++ t)) ->
      exec (pack_encrypted (with_aead C e) m' to from sign_by' o) (tr1' ++ tr2) (Ok (text, mkPM None (pm_from_kid pm) skid' (pm_to_kids pm))).
Proof. exact hidden. Qed.
Print Assumptions C40_plaintext_hidden.
(** Two messages and such a content encryption. *)
Example C40_case : let e := fun ce k n aad pt => aead_enc toy ce k n aad (if beq pt (message_text rich_msg) then message_text toy_msg else pt) in
  written toy rich_msg None [] (message_text rich_msg) None /\ ~ refused rich_msg bob_did (Some alice_did) None
  /\ (forall ce k n aad, e ce k n aad (message_text rich_msg) = aead_enc toy ce k n aad (message_text toy_msg))
  /\ (forall ce k n aad t, e ce k n aad (B "{""protected""" ++ t) = aead_enc toy ce k n aad (B "{""protected""" ++ t))
  /\ message_text rich_msg <> message_text toy_msg.
Proof.
  cbv zeta. split; [split; [rewrite unsigned_plain; [split; reflexivity|reflexivity]|reflexivity]|]. split.
  { destruct (validate_cases rich_msg bob_did (Some alice_did) None) as [[_ N]|[E _]]; [exact N|]. vm_compute in E. discriminate E. }
  split; [intros; now rewrite beq_refl|]. split.
  - intros ce k n aad t. assert (E : beq (B "{""protected""" ++ t) (message_text rich_msg) = false); [|now rewrite E].
    destruct (beq_spec (B "{""protected""" ++ t) (message_text rich_msg)) as [E|]; [|reflexivity]. exfalso.
    apply (f_equal (firstn 3)) in E. vm_compute in E. discriminate E.
  - intros E. apply (f_equal (@List.length ascii)) in E. vm_compute in E. discriminate E.
Qed.

(** C41.  Every random value is drawn for one envelope (content key, ephemeral key,
    nonce) or one forward message, and used there only. *)
Theorem C41_fresh_values : forall C m to from sign_by o tr text pm, exec (pack_encrypted C m to from sign_by o) tr (Ok (text, pm)) ->
  exists tr1 tr2 msg, tr = tr1 ++ tr2 /\ written C m sign_by tr1 msg (pm_sign_by_kid pm) /\ draws tr1 = [] /\ onion C (draws tr2) msg text.
Proof. exact fresh. Qed.
Print Assumptions C41_fresh_values.
(** Authcrypt, protected, through two mediators: four envelopes, two forwards. *)
Example C41_case : map fst (draws (trace (toy_env toy_docs sec_alice) (pack_encrypted toy rich_msg bob_did (Some alice_did) None (mkPO true true None None AuthA256cbcHs512 AnonXc20p))))
  = let three c := [RCek c; REpk KX25519; RNonce c] in three CA256CbcHs512 ++ three CXC20P ++ RUuid :: three CXC20P ++ RUuid :: three CXC20P.
Proof. vm_compute. reflexivity. Qed.

(** C51.  False as stated: when the first recognised keyAgreement key cannot agree on
    keys, packing fails although another one could. *)
Definition odd_doc : diddoc :=
  mkDoc (B "did:ex:odd") [B "did:ex:odd#e"; B "did:ex:odd#x"] []
    [vm_jwk "did:ex:odd#e" KEd25519 "oe"; vm_jwk "did:ex:odd#x" KX25519 "ox"] [].
Definition odd_msg : message := mb_new (B "id-2") (B "t") (VObj []).
Lemma toy_seals : sealing_works toy.
Proof. repeat split; intros; discriminate. Qed.
Theorem C51_usable_key_found_refuted : exists C dir own m to o did doc kid p tr,
  sealing_works C /\ did_part to did /\ dir did = Some doc /\ publishes C doc_key_agreement doc kid KX25519 p
  /\ msg_from_prior m = None /\ ~ refused m to None None
  /\ exec (pack_encrypted C m to None None o) tr (Err InvalidState) /\ Forall (answers dir own) tr.
Proof.
  exists toy, (dir_of [odd_doc]), (own_of []), odd_msg, (B "did:ex:odd"), anon_opts, (B "did:ex:odd"), odd_doc, (B "did:ex:odd#x"), (B "ox").
  eexists. split; [exact toy_seals|]. split; [right; split; [intros I; cbn in I; intuition discriminate|reflexivity]|]. split; [vm_compute; reflexivity|].
  split; [|split; [reflexivity|split]].
  - split; [cbn; auto|]. exists (vm_jwk "did:ex:odd#x" KX25519 "ox"). split; [|vm_compute; reflexivity].
    exists [vm_jwk "did:ex:odd#e" KEd25519 "oe"], []. split; [reflexivity|]. split; [reflexivity|]. intros y [<-|[]]. discriminate.
  - destruct (validate_cases odd_msg (B "did:ex:odd") None None) as [[_ N]|[E _]]; [exact N|]. vm_compute in E. discriminate E.
  - assert (E : run (toy_env [odd_doc] []) (pack_encrypted toy odd_msg (B "did:ex:odd") None None anon_opts) = Err InvalidState) by (vm_compute; reflexivity).
    rewrite <- E. split; [apply run_exec|apply toy_env_trace].
Qed.
Print Assumptions C51_usable_key_found_refuted.
(** What holds: the first recognised key is on X25519 or P-256, all listed keys have
    entries, and those on that curve can be read.  Missing: a usable key further down. *)
Theorem C51_usable_key_found_partial : forall C dir own m to o did doc all k0 ka tr r, sealing_works C ->
  msg_from_prior m = None -> ~ refused m to None None -> po_forward o = false ->
  did_part to did -> dir did = Some doc -> wanted to (doc_key_agreement doc) all -> described doc all ->
  first_with (fun k => ~ on_curve doc KUnsupported k) all k0 -> on_curve doc ka k0 -> agreement ka ->
  (forall k, In k all -> on_curve doc ka k -> exists p, publishes C doc_key_agreement doc k ka p) ->
  exec (pack_encrypted C m to None None o) tr r -> Forall (answers dir own) tr -> exists t, r = Ok t.
Proof.
  intros C dir own m to o did doc all k0 ka tr r SW MP NR F H1 H2 H3 H4 H5 H6 H7 H8 E A.
  exact (safe_exec _ _ _ _ _ (pack_anon_works C dir own m to o MP NR F (anon_works C dir own to _ _ did doc all k0 ka SW H1 H2 H3 H4 H5 H6 H7 H8)) E A).
Qed.
Print Assumptions C51_usable_key_found_partial.
Example C51_case : is_ok (run (toy_env [odd_doc] []) (pack_encrypted toy odd_msg (B "did:ex:odd#x") None None anon_opts)) = true
  /\ is_ok (run (toy_env toy_docs []) (pack_encrypted toy toy_msg bob_did None None anon_opts)) = true.
Proof. split; vm_compute; reflexivity. Qed.
