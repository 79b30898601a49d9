(** C19: Message::unpack ends.  The model's loop takes a number of rounds it may run;
    [None] means that the number was too small. *)
From Verif.Model Require Import Prelude Utf8 Base64 Json Serde DidDoc Crypto Keys Effects Jws Jwe Message FromPrior Pack Routing Unpack.
From Verif.Spec Require Import Codec Small Events Toy Bounds.
From Verif.Proofs Require Import Lib TermP.

(** C19.  When opening a ciphertext never yields more bytes than it holds, unpacking a
    text ends after at most as many rounds as the text has bytes, whatever the resolvers
    answer. *)
Theorem C19_unpack_terminates : forall C fuel text o tr x, aead_shrinks C -> floats_stable (fparse C) ->
  List.length text < fuel -> exec (unpack C fuel text o) tr x -> exists r, x = Some r.
Proof. intros C fuel text o tr x S F L H. apply unpack_ends in H; auto. destruct x; [eauto|contradiction]. Qed.
Print Assumptions C19_unpack_terminates.

(** C19.  One round is enough for a text that is not an envelope; for an envelope the
    lengths of its ciphertext and tag bound the rounds. *)
Theorem C19_layers_bounded : forall C fuel text o tr x, aead_shrinks C -> floats_stable (fparse C) -> 0 < fuel ->
  (forall j, jwe_from_str text = Ok j -> List.length (jwe_ciphertext j) + List.length (jwe_tag j) < fuel) ->
  exec (unpack C fuel text o) tr x -> exists r, x = Some r.
Proof. intros C fuel text o tr x S F P L H. apply layers_bounded in H; auto. destruct x; [eauto|contradiction]. Qed.
Print Assumptions C19_layers_bounded.

(** C19.  Without unwrapping of forwards there is a single round, for any primitives. *)
Theorem C19_no_unwrap : forall C fuel text o tr x, uo_unwrap o = false -> 0 < fuel ->
  exec (unpack C fuel text o) tr x -> exists r, x = Some r.
Proof.
  intros C [|f] text o tr x U P H; [lia|]. unfold unpack in H. cbn [unpack_loop] in H. rewrite U in H.
  apply Lib.exec_bind in H as (t1 & t2 & r & -> & _ & H). destruct r as [[[pt md]|]| |].
  1,2: apply Lib.exec_bind in H as (? & ? & ? & _ & _ & [_ ->]); eauto.
  all: destruct H as [_ ->]; eauto.
Qed.
Print Assumptions C19_no_unwrap.

(** The allowed number of rounds has no other effect: a result stays for any larger one. *)
Theorem C19_fuel_irrelevant : forall C fuel fuel' text o tr r, fuel <= fuel' ->
  exec (unpack C fuel text o) tr (Some r) -> exec (unpack C fuel' text o) tr (Some r).
Proof. intros C fuel fuel' text o tr r. apply unpack_more. Qed.
Print Assumptions C19_fuel_irrelevant.

(** Bob's message in a forward to Bob: one round is not enough, two are. *)
Definition toy_nested : bytes :=
  match run (toy_env toy_docs []) (wrap_in_forward toy (toy_pack None None false false) None (B "did:ex:bob") [B "did:ex:bob"] AnonA256gcm) with
  | Ok t => t | _ => [] end.
Example C19_case : aead_shrinks toy /\ floats_stable (fparse toy)
  /\ run (toy_env toy_docs sec_bob) (unpack toy 1 toy_nested default_unpack_options) = None
  /\ match run (toy_env toy_docs sec_bob) (unpack toy 2 toy_nested default_unpack_options) with
     | Some (Ok (m, md)) => m = toy_msg /\ um_re_wrapped md = true | _ => False end.
Proof.
  split; [|split].
  - intros ce cek iv aad c p H. cbn in H. unfold toy_aead_dec in H.
    assert (G : forall a b q, strip a b = Some q -> List.length q <= List.length b).
    { induction a as [|x a IH]; intros [|y b] q E; cbn in E; try discriminate; try (injection E as <-; auto).
      destruct (Ascii.eqb x y); [|discriminate]. apply IH in E. cbn. lia. }
    apply G in H. now rewrite rev_length in H.
  - intros t l H. change (fparse toy) with (fun t => if beq t (B "1.5") then Some t else None) in H. cbv beta in H. destruct (beq t (B "1.5")) eqn:E; [|discriminate]. injection H as <-. apply beq_eq in E. subst t.
    split; [|reflexivity]. exists [], (B "1"), (B ".5"), []. split; [reflexivity|]. split; auto. split.
    { right. exists "1"%char, []. split; auto. split; [now left|constructor]. }
    assert (D : digits1 (B "5")) by (unfold digits1, digit09; split; [easy|constructor; [cbn; auto 10|constructor]]).
    split; [right; exists (B "5"); auto|]. split; [now left|]. left. easy.
  - vm_compute. auto.
Qed.
