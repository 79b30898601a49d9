(** What a mediator gets to see. *)
From Verif.Model Require Import Prelude Utf8 Base64 Json Serde DidDoc Crypto Keys Effects Jws Jwe Message FromPrior Pack Routing Unpack.
From Verif.Spec Require Import Codec Small Events Toy World Text Packing Mediator.
From Verif.Proofs Require Import Lib ToyP HideP MediatorP.
From Verif.Props Require Import RoundTrip.

(** C92.  The text sent to the first mediator is the anonymous encryption, for its routing key,
    of a forward message about the text for the second mediator, naming that mediator, and so
    on. *)
Theorem C92_layers : forall C headers alg msg to r rest tr text, exec (wrap_in_forward C msg headers to (r :: rest) alg) tr (Ok text) <->
  exists tr1 tr2 pt kids, tr = tr1 ++ tr2 /\ for_first C headers alg msg to (r :: rest) tr1 pt /\ exec (anoncrypt C r pt alg) tr2 (Ok (text, kids)).
Proof. exact wrap_first. Qed.
Print Assumptions C92_layers.
(** The first mediator reads the same forward message, and gets the same text, whatever is sent
    to whom along whatever mediators after the second one, if the encryption for the second
    mediator gives the same for it. *)
Theorem C92_mediator_view : forall C headers alg msg to r1 r2 rest tr text, exec (wrap_in_forward C msg headers to (r1 :: r2 :: rest) alg) tr (Ok text) ->
  exists tr1 tr2 tr3 pt outer, tr = tr1 ++ tr2 ++ tr3 /\ for_first C headers alg msg to (r2 :: rest) tr1 pt
    /\ for_first C headers alg msg to (r1 :: r2 :: rest) (tr1 ++ tr2) outer
    /\ forall e msg' to' rest' tr1' pt', for_first (with_aead C e) headers alg msg' to' (r2 :: rest') tr1' pt' ->
      (forall ce k n aad, e ce k n aad pt' = aead_enc C ce k n aad pt) ->
      for_first (with_aead C e) headers alg msg' to' (r1 :: r2 :: rest') (tr1' ++ tr2) outer
      /\ ((forall ce k n aad, e ce k n aad outer = aead_enc C ce k n aad outer) ->
         exec (wrap_in_forward (with_aead C e) msg' headers to' (r1 :: r2 :: rest') alg) (tr1' ++ tr2 ++ tr3) (Ok text)).
Proof. exact mediator_view. Qed.
Print Assumptions C92_mediator_view.
(** Who is not a mediator sees neither the next hop nor the headers. *)
Theorem C92_network_view : forall C headers alg msg to r rest tr text, exec (wrap_in_forward C msg headers to (r :: rest) alg) tr (Ok text) ->
  exists tr1 tr2 pt, tr = tr1 ++ tr2 /\ for_first C headers alg msg to (r :: rest) tr1 pt
    /\ forall e msg' headers' to' rest' tr1' pt', for_first (with_aead C e) headers' alg msg' to' (r :: rest') tr1' pt' ->
      (forall ce k n aad, e ce k n aad pt' = aead_enc C ce k n aad pt) ->
      exec (wrap_in_forward (with_aead C e) msg' headers' to' (r :: rest') alg) (tr1' ++ tr2) (Ok text).
Proof. exact network_view. Qed.
Print Assumptions C92_network_view.

(** Bob gets {"a":1} along two mediators; in the other case Carol gets {"b":2}. *)
Definition med_keys : list bytes := [B "did:ex:med1#x"; B "did:ex:med2#x"].
Definition med_headers : option (list (bytes * value)) := Some [(B "expires", VNum (PosInt 5))].
Definition json_a : bytes := B "{""a"":1}".
Definition json_b : bytes := B "{""b"":2}".
Definition pt_of (next : string) (v : value) : bytes := forward_text (B "uuid") (B next) [(B "expires", VNum (PosInt 5))] v.
Definition pt_a : bytes := Eval vm_compute in pt_of "did:ex:bob" (VObj [(B "a", VNum (PosInt 1))]).
Definition pt_b : bytes := Eval vm_compute in pt_of "did:ex:carol" (VObj [(B "b", VNum (PosInt 2))]).
Definition alike_aead (ce : cenc) (k n aad pt : bytes) : option (bytes * bytes) := aead_enc toy ce k n aad (if beq pt pt_b then pt_a else pt).
Definition onion_a : bytes := Eval vm_compute in
  match run (toy_env toy_docs []) (wrap_in_forward toy json_a med_headers (B "did:ex:bob") med_keys AnonXc20p) with Ok t => t | _ => [] end.
Example C92_case : (exists tr, exec (wrap_in_forward toy json_a med_headers (B "did:ex:bob") med_keys AnonXc20p) tr (Ok onion_a))
  /\ for_first toy med_headers AnonXc20p json_a (B "did:ex:bob") [B "did:ex:med2#x"] [Ev (ORandom RUuid) (B "uuid")] pt_a
  /\ for_first (with_aead toy alike_aead) med_headers AnonXc20p json_b (B "did:ex:carol") [B "did:ex:med2#x"] [Ev (ORandom RUuid) (B "uuid")] pt_b
  /\ (forall ce k n aad, alike_aead ce k n aad pt_b = aead_enc toy ce k n aad pt_a) /\ pt_a <> pt_b
  /\ run (toy_env toy_docs []) (wrap_in_forward (with_aead toy alike_aead) json_b med_headers (B "did:ex:carol") med_keys AnonXc20p) = Ok onion_a
  /\ run (toy_env toy_docs []) (wrap_in_forward toy json_b med_headers (B "did:ex:carol") med_keys AnonXc20p) <> Ok onion_a.
Proof.
  split. { eexists. assert (E : run (toy_env toy_docs []) (wrap_in_forward toy json_a med_headers (B "did:ex:bob") med_keys AnonXc20p) = Ok onion_a) by (vm_compute; reflexivity). rewrite <- E. apply run_exec. }
  split; [|split; [|split; [|split; [|split]]]].
  - exists (VObj [(B "a", VNum (PosInt 1))]), (B "uuid"). split; [vm_compute; reflexivity|]. split; [reflexivity|vm_compute; reflexivity].
  - exists (VObj [(B "b", VNum (PosInt 2))]), (B "uuid"). split; [vm_compute; reflexivity|]. split; [reflexivity|vm_compute; reflexivity].
  - intros. unfold alike_aead. now rewrite beq_refl.
  - discriminate.
  - vm_compute. reflexivity.
  - intros E. vm_compute in E. discriminate E.
Qed.
