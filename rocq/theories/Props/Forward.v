(** Messages through mediators. *)
From Verif.Model Require Import Prelude Utf8 Base64 Json Serde DidDoc Crypto Keys Effects Jws Jwe Message FromPrior Pack Routing Unpack.
From Verif.Spec Require Import Codec Small Events Toy World Packing Forward.
From Verif.Proofs Require Import Lib NoPanic RoundP ToyP PackP RouteP ForwardP.
From Verif.Props Require Import RoundTrip Pack.

(** C05.  Any JSON text wrapped for a list of routing keys goes from key to key and
    arrives as that JSON. *)
Theorem C05_onion_delivers : forall C pair dir own headers to alg msg rks tr text v,
  lawful C pair -> directory dir -> headers_fit C headers -> Forall (fun k => utf8 k = true) (to :: rks) ->
  exec (wrap_in_forward C msg headers to rks alg) tr (Ok text) -> Forall (answers dir own) tr ->
  from_json (to_value (fparse C) max_depth) msg = Ok v -> json_value (fparse C) 123 v ->
  travels C pair dir alg rks to text v.
Proof. intros C pair dir own headers to alg msg rks tr text v L D HF U H A. now apply (wrapped_travels C pair L dir D own headers to alg msg rks tr text v HF H A U). Qed.
Print Assumptions C05_onion_delivers.

(** Packed with mediators on the route: the text goes through the routing keys of the
    route, and what arrives is read exactly as the text packed without forwarding
    (which C03 and C04 are about). *)
Theorem C05_packed_onion : forall C pair dir own m to from sign_by o tr text pm sm,
  lawful C pair -> directory dir -> secrets_match C pair dir own -> headers_fit C (po_forward_headers o) -> utf8 to = true ->
  (forall id uri rks, route dir to (po_messaging_service o) (Some (id, uri, rks)) -> Forall (fun k => utf8 k = true) rks) ->
  exec (pack_encrypted C m to from sign_by o) tr (Ok (text, pm)) -> Forall (answers dir own) tr -> pm_service pm = Some sm ->
  exists tr1 inner rks v, route dir to (po_messaging_service o) (Some (smd_id sm, smd_endpoint sm, rks))
    /\ exec (pack_encrypted C m to from sign_by (no_forward o)) tr1 (Ok (inner, mkPM None (pm_from_kid pm) (pm_sign_by_kid pm) (pm_to_kids pm)))
    /\ Forall (answers dir own) tr1 /\ from_json (to_value (fparse C) max_depth) inner = Ok v
    /\ travels C pair dir (po_enc_alg_anon o) rks to text v /\ same_unpack C (print v) inner.
Proof. intros C pair dir own m to from sign_by o tr text pm sm L D. exact (pack_travels C pair L dir D own m to from sign_by o tr text pm sm). Qed.
Print Assumptions C05_packed_onion.

Definition fwd_opts : pack_options := mkPO true true (Some [(B "expires", VNum (PosInt 5))]) None AuthA256cbcHs512 AnonXc20p.
(** Unpack, and take out what is to be forwarded. *)
Definition relay (secs : list secret) (text : bytes) : bytes * bytes :=
  match toy_unpack secs text default_unpack_options with
  | Some (Ok (m, _)) => match try_parse_forward m with Some pf => (pf_next pf, print (pf_forwarded pf)) | None => ([], []) end
  | _ => ([], [])
  end.
Example C05_case : headers_fit toy (po_forward_headers fwd_opts)
  /\ (exists tr r pm, by_alice (pack_encrypted toy rich_msg bob_did (Some alice_did) None fwd_opts) tr r
        /\ pm_of r = Some pm /\ pm_service pm = Some (mkSM (B "did:ex:bob#svc") (B "http://m1")))
  /\ (forall id uri rks, route dir bob_did None (Some (id, uri, rks)) -> Forall (fun k => utf8 k = true) rks)
  /\ (let text := text_of (run (toy_env toy_docs sec_alice) (pack_encrypted toy rich_msg bob_did (Some alice_did) None fwd_opts)) in
      let (n1, t1) := relay sec_med1 text in let (n2, t2) := relay sec_med2 t1 in
      n1 = B "did:ex:med2#x" /\ n2 = bob_did /\ exists md, toy_unpack sec_bob t2 default_unpack_options = Some (Ok (rich_msg, md))).
Proof.
  split; [|split; [|split]].
  - intros l E. injection E as <-. split; [|split].
    + intros k v [E|[]]. injection E as <- <-. split; [reflexivity|]. split; [cbn; intuition discriminate|]. constructor. reflexivity.
    + intros I. specialize (I _ (or_introl eq_refl)). cbn in I. intuition discriminate.
    + intros I. specialize (I _ (or_introl eq_refl)). cbn in I. intuition discriminate.
  - assert (E : exists pm, pm_of (run (toy_env toy_docs sec_alice) (pack_encrypted toy rich_msg bob_did (Some alice_did) None fwd_opts)) = Some pm
      /\ pm_service pm = Some (mkSM (B "did:ex:bob#svc") (B "http://m1"))) by (eexists; vm_compute; auto).
    destruct E as (pm & E & E1). destruct (alice_gets _ _ _ E) as (tr & r & R & F). exists tr, r, pm. auto.
  - intros id uri rks R. destruct C28_case as (_ & _ & _ & _ & _ & _ & R').
    pose proof (route_fun _ _ _ _ _ R R') as X. injection X as -> -> ->. repeat constructor.
  - vm_compute. repeat split. eexists. reflexivity.
Qed.
