(** Unwrapping forwards automatically and by hand. *)
From Verif.Model Require Import Prelude Json Serde DidDoc Crypto Effects Jwe Message Pack Routing Unpack.
From Verif.Spec Require Import Small Events Toy World Cond.
From Verif.Proofs Require Import Lib ToyP DeliverP.
From Verif.Props Require Import RoundTrip Unpack Cond.

(** C82.  Suppose that unpacking [text] without unwrapping gives a forward message to
    [next] that only its anonymous envelope protected.  If we hold a key of [next],
    unpacking with unwrapping ends like unpacking what the forward carries; if we hold
    none, it gives the forward message and the same metadata as without unwrapping. *)
Theorem C82_unwrap_by_hand : forall C h fuel fuel' text all m md next v found,
  run h (unpack C fuel text (mkUO all false)) = Some (Ok (m, md)) ->
  um_anonymous_sender md = true -> um_authenticated md = false ->
  try_parse_forward m = Some (mkPF next v) -> says_held h next found ->
  match found with
  | [] => run h (unpack C (S fuel') text (mkUO all true)) = Some (Ok (m, md))
  | _ => same_end (run h (unpack C (S fuel') text (mkUO all true))) (run h (unpack C fuel' (print v) (mkUO all true)))
  end.
Proof. exact by_hand. Qed.
Print Assumptions C82_unwrap_by_hand.
(** Bob gets a forward to himself and one to Alice, whose keys he does not hold. *)
Definition forward_to_alice : bytes :=
  Eval vm_compute in match run (toy_env toy_docs []) (wrap_in_forward toy (toy_pack None None false false) None (B "did:ex:alice") [B "did:ex:bob#x1"] AnonA256gcm) with Ok t => t | _ => [] end.
Definition peeled (text : bytes) :=
  match run (toy_env toy_docs sec_bob) (unpack toy 9 text (mkUO false false)) with
  | Some (Ok (m, md)) => Some (um_anonymous_sender md, um_authenticated md, option_map pf_next (try_parse_forward m))
  | _ => None
  end.
Example C82_case : peeled anon_in_forward = Some (true, false, Some (B "did:ex:bob"))
  /\ peeled forward_to_alice = Some (true, false, Some (B "did:ex:alice"))
  /\ says_held (toy_env toy_docs sec_bob) (B "did:ex:bob") [B "did:ex:bob#x1"; B "did:ex:bob#x2"]
  /\ says_held (toy_env toy_docs sec_bob) (B "did:ex:alice") []
  /\ ok_part (fun '(m, md) => (um_re_wrapped md, msg_id m)) (bob_reads anon_in_forward default_unpack_options) = Some (true, msg_id toy_msg)
  /\ ok_part (fun '(m, md) => (um_re_wrapped md, is_some (try_parse_forward m))) (bob_reads forward_to_alice default_unpack_options) = Some (false, true).
Proof.
  split; [vm_compute; reflexivity|]. split; [vm_compute; reflexivity|].
  split; [|split; [|split; vm_compute; reflexivity]].
  - eexists. split; [|right; split; [|eexists; split; reflexivity]]; [vm_compute; reflexivity|]. vm_compute. intuition discriminate.
  - eexists. split; [|right; split; [|eexists; split; reflexivity]]; [vm_compute; reflexivity|]. vm_compute. intuition discriminate.
Qed.
