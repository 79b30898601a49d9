(** Whom the library asks about. *)
From Verif.Model Require Import Prelude Utf8 Base64 Json Serde DidDoc Crypto Keys Effects Jws Jwe Message FromPrior Pack Routing Unpack.
From Verif.Spec Require Import Small Events Packing Asked Toy.
From Verif.Proofs Require Import Lib AskedP.

(** C70.  While unpacking, the DID resolver is only asked for DIDs that the message, or something
    inside it, names: an authcrypt sender, a signer, the next hop of a forward message, the DID of a
    rotation token. *)
Theorem C70_unpack_resolves_named : forall C fuel text o tr x did r,
  exec (unpack C fuel text o) tr x -> In (Ev (OResolve did) r) tr -> concerns C text did.
Proof. exact unpack_resolves. Qed.
Print Assumptions C70_unpack_resolves_named.
(** While packing: only for the DIDs of the arguments and of the rotation token and, with
    forwarding, for the endpoint and the routing keys of the recipient's messaging service. *)
Theorem C70_pack_resolves_named : forall C m to from sign_by o tr x t1 did r t2,
  exec (pack_encrypted C m to from sign_by o) tr x -> tr = t1 ++ Ev (OResolve did) r :: t2 ->
  pack_resolves m to from sign_by o t1 did.
Proof. intros C m to from sign_by o tr x t1 did r t2 E H. exact (pack_calls C m to from sign_by o tr x E _ _ _ _ H). Qed.
Print Assumptions C70_pack_resolves_named.
Definition asked_of (e : event) : op := let (o, _) := e in o.
Definition resolves_of {A} (h : handler) (m : prog A) : list bytes :=
  flat_map (fun e => match asked_of e with OResolve did => [did] | _ => [] end) (Toy.trace h m).
(** Bob is behind two mediators. *)
Example C70_case :
  resolves_of (toy_env toy_docs sec_alice)
    (pack_encrypted toy toy_msg (B "did:ex:bob") (Some (B "did:ex:alice")) (Some (B "did:ex:alice#e")) default_pack_options)
  = [B "did:ex:alice"; B "did:ex:bob"; B "did:ex:alice"; B "did:ex:bob"; B "did:ex:med1"; B "did:ex:med2"; B "did:ex:med1"]
  /\ resolves_of (toy_env toy_docs sec_bob) (unpack toy 9 (toy_pack (Some (B "did:ex:alice")) (Some (B "did:ex:alice")) true false) default_unpack_options)
     = [B "did:ex:alice"; B "did:ex:alice"].
Proof. vm_compute. auto. Qed.

(** C71.  While packing, the secrets resolver is only asked for authentication keys of the signer
    and keyAgreement keys of the sender, and only secrets it reported are fetched; nothing is asked
    about secrets when the message is neither signed nor authenticated. *)
Theorem C71_pack_own_secrets : forall C m to from sign_by o tr x t1 ids r t2,
  exec (pack_encrypted C m to from sign_by o) tr x -> tr = t1 ++ Ev (OFindSecrets ids) r :: t2 ->
  pack_seeks from sign_by t1 ids.
Proof. intros C m to from sign_by o tr x t1 ids r t2 E H. exact (pack_calls C m to from sign_by o tr x E _ _ _ _ H). Qed.
Print Assumptions C71_pack_own_secrets.
Theorem C71_pack_reported_secrets : forall C m to from sign_by o tr x t1 id r t2,
  exec (pack_encrypted C m to from sign_by o) tr x -> tr = t1 ++ Ev (OGetSecret id) r :: t2 ->
  exists ids found, pack_seeks from sign_by t1 ids /\ reported t1 ids found /\ In id found.
Proof. intros C m to from sign_by o tr x t1 id r t2 E H. exact (pack_calls C m to from sign_by o tr x E _ _ _ _ H). Qed.
Print Assumptions C71_pack_reported_secrets.
Theorem C71_anonymous_needs_no_secret : forall C m to o tr x e,
  exec (pack_encrypted C m to None None o) tr x -> In e tr -> ~ secret_call e.
Proof.
  intros C m to o tr x e E I. apply in_split in I as (t1 & t2 & H). destruct e as [c r].
  pose proof (pack_calls C m to None None o tr x E _ _ _ _ H) as K.
  assert (N : forall ids, ~ pack_seeks None None t1 ids) by (intros ids [(s & d & doc & S & _)|(s & d & doc & S & _)]; discriminate).
  destruct c as [d|ids|id|u]; cbn in K |- *; try tauto.
  - intros _. exact (N _ K).
  - intros _. destruct K as (ids & found & K & _). exact (N _ K).
Qed.
Print Assumptions C71_anonymous_needs_no_secret.
Example C71_case :
  filter (fun c => match c with OFindSecrets _ | OGetSecret _ => true | _ => false end)
    (map asked_of (Toy.trace (toy_env toy_docs sec_alice)
      (pack_encrypted toy toy_msg (B "did:ex:bob") (Some (B "did:ex:alice")) (Some (B "did:ex:alice#e")) default_pack_options)))
  = [OFindSecrets [B "did:ex:alice#e"]; OGetSecret (B "did:ex:alice#e");
     OFindSecrets [B "did:ex:alice#x"; B "did:ex:alice#p"]; OGetSecret (B "did:ex:alice#x")].
Proof. vm_compute. reflexivity. Qed.

(** C72.  The outcome of unpacking depends on the resolvers only through their answers about what
    the message names: resolvers that agree on those give the same outcome. *)
Theorem C72_unpack_depends_on_named : forall C fuel text o h1 h2,
  (forall c, unpack_needs C h1 text c -> h1 c = h2 c) ->
  run h1 (unpack C fuel text o) = run h2 (unpack C fuel text o).
Proof. exact unpack_same. Qed.
Print Assumptions C72_unpack_depends_on_named.
(** The same for packing. *)
Theorem C72_pack_depends_on_named : forall C m to from sign_by o h1 h2,
  (forall c, pack_needs h1 m to from sign_by o c -> h1 c = h2 c) ->
  run h1 (pack_encrypted C m to from sign_by o) = run h2 (pack_encrypted C m to from sign_by o).
Proof. exact pack_same. Qed.
Print Assumptions C72_pack_depends_on_named.

(** A resolver that only knows Alice, and no secrets resolver at all: enough to read a message
    signed by Alice. *)
Definition only_alice : handler := fun c =>
  match c return resp c with
  | OResolve did => if beq did (B "did:ex:alice") then Ok (Some doc_alice) else Err IoError
  | OFindSecrets _ => Err IoError
  | OGetSecret _ => Err IoError
  | ORandom _ => []
  end.
Definition signed_payload : bytes := Eval vm_compute in message_text toy_msg.
Definition signed_text : bytes := Eval vm_compute in toy_signed.
Lemma signed_met t : met toy signed_text t -> t = signed_text \/ t = signed_payload.
Proof.
  induction 1 as [|t j h ce ka sender kid k pt M [-> | ->] [E _] O|t j pl M [-> | ->] J P|t next v M [-> | ->] (m & body & att & rest & js & F & Ty & _)]; auto.
  - vm_compute in E. discriminate.
  - vm_compute in E. discriminate.
  - right. assert (E : option_map (fun j => b64dec (jws_payload j)) (match jws_from_str signed_text with Ok j => Some j | _ => None end) = Some (Some signed_payload))
      by (vm_compute; reflexivity). rewrite J in E. cbn in E. congruence.
  - vm_compute in J. discriminate.
  - vm_compute in F. discriminate.
  - assert (E : option_map msg_type (match message_from_str (fparse toy) signed_payload with Ok m => Some m | _ => None end) = Some (B "https://example.org/hello"))
      by (vm_compute; reflexivity). rewrite F in E. cbn [option_map] in E. rewrite Ty in E. discriminate.
Qed.
Example C72_case :
  (forall c, unpack_needs toy (toy_env toy_docs sec_bob) signed_text c -> toy_env toy_docs sec_bob c = only_alice c)
  /\ ok_part fst (run only_alice (unpack toy 9 signed_text default_unpack_options)) = Some toy_msg
  /\ toy_env toy_docs sec_bob (OResolve (B "did:ex:bob")) <> only_alice (OResolve (B "did:ex:bob")).
Proof.
  split; [|split; [vm_compute; reflexivity|discriminate]].
  assert (NF : forall t next v, t = signed_text \/ t = signed_payload -> ~ forward_to toy t next v).
  { intros t next v [-> | ->] (m & body & att & rest & js & F & Ty & _).
    - vm_compute in F. discriminate.
    - assert (E : option_map msg_type (match message_from_str (fparse toy) signed_payload with Ok m => Some m | _ => None end) = Some (B "https://example.org/hello"))
        by (vm_compute; reflexivity). rewrite F in E. cbn [option_map] in E. rewrite Ty in E. discriminate. }
  assert (NE : forall t j h, t = signed_text \/ t = signed_payload -> ~ envelope toy t j h).
  { intros t j h [-> | ->] [E _]; vm_compute in E; discriminate. }
  assert (NA : forall dir ids, ~ addresses toy dir signed_text ids).
  { intros dir ids (t & M & [(j & h & E & _)|(next & v & F & _)]); apply signed_met in M; [eapply NE|eapply NF]; eauto. }
  intros [did|ids|id|u]; cbn [unpack_needs].
  - intros (t & M & N). apply signed_met in M. destruct N as [j h apu E _ _ _|j sg J S U|v F _|m jwt F P _].
    + exfalso. eapply NE; eauto.
    + destruct M as [-> | ->]; [|vm_compute in J; discriminate].
      assert (E : option_map (fun j => map sig_kid (jws_signatures j)) (match jws_from_str signed_text with Ok j => Some j | _ => None end) = Some [B "did:ex:alice#e"])
        by (vm_compute; reflexivity). rewrite J in E. cbn in E. rewrite S in E. cbn in E. injection E as E. rewrite E in U.
      assert (did = B "did:ex:alice") as ->.
      { apply UnpackInv.url_of_some in U. vm_compute in U. injection U as <-. reflexivity. }
      vm_compute. reflexivity.
    + exfalso. eapply NF; eauto.
    + destruct M as [-> | ->]; [vm_compute in F; discriminate|].
      assert (E : option_map msg_from_prior (match message_from_str (fparse toy) signed_payload with Ok m => Some m | _ => None end) = Some None)
        by (vm_compute; reflexivity). rewrite F in E. cbn in E. congruence.
  - intros N. destruct (NA _ _ N).
  - intros (ids & found & N & _). destruct (NA _ _ N).
  - tauto.
Qed.
