(** C21, C54: exactly when an operation panics. *)
From Verif.Model Require Import Prelude Base58 DidDoc Crypto Keys Effects Jws Jwe Message FromPrior Pack Routing Unpack.
From Verif.Spec Require Import Small Events Panics Cond Toy.
From Verif.Proofs Require Import Lib NoPanic PanicP PanicE.

(** C21.  wrap_in_forward panics exactly when it is given no routing keys. *)
Theorem C21_panics_iff : forall C msg headers to keys alg tr x,
  exec (wrap_in_forward C msg headers to keys alg) tr x -> Forall calm tr -> (x = Panic <-> keys = []).
Proof.
  intros C msg h to keys alg tr x H F. split.
  - intros ->. destruct keys as [|k keys]; [reflexivity|].
    destruct (safe_exec _ _ _ _ _ (wrap_in_forward_safe C msg h to (k :: keys) alg ltac:(discriminate)) H F eq_refl).
  - intros ->. destruct H as [_ ->]. reflexivity.
Qed.
Print Assumptions C21_panics_iff.

(** C54.  With resolvers that do not panic, signing panics exactly when it was given an
    Ed25519 secret that is too short; packing a rotation and unpacking likewise. *)
Theorem C54_signed_iff : forall C m sign_by tr x, exec (pack_signed C m sign_by) tr x -> Forall quiet tr ->
  (x = Panic <-> exists kid s, held tr kid s /\ ~ long_enough s).
Proof. intros C m s tr x. exact (panics_iff _ tr x (signed_touchy C m s) (pack_signed_safe C m s)). Qed.
Print Assumptions C54_signed_iff.
Theorem C54_rotation_iff : forall C p kid tr x, exec (from_prior_pack C p kid) tr x -> Forall quiet tr ->
  (x = Panic <-> exists kid s, held tr kid s /\ ~ long_enough s).
Proof. intros C p kid tr x. exact (panics_iff _ tr x (prior_pack_touchy C p kid) (from_prior_pack_safe C p kid)). Qed.
Print Assumptions C54_rotation_iff.
Theorem C54_unpack_iff : forall C fuel text o tr r, exec (unpack C fuel text o) tr (Some r) -> Forall quiet tr ->
  (r = Panic <-> exists kid s, held tr kid s /\ ~ long_enough s).
Proof. exact unpack_iff. Qed.
Print Assumptions C54_unpack_iff.

(** The three kinds of secrets that are too short, and two that are not, though short. *)
Definition secret_2018 t := mkSecret (B "did:ex:alice#e") Ed25519VerificationKey2018 (MBase58 (B t)).
Definition secret_2020 t := mkSecret (B "did:ex:alice#e") Ed25519VerificationKey2020 (MMultibase (B t)).
Definition signs_with (s : secret) : option (option errkind) :=
  match run (toy_env toy_docs [s]) (pack_signed toy toy_msg (B "did:ex:alice")) with Ok _ => None | Err k => Some (Some k) | Panic => Some None end.
Example C54_cases : map signs_with [secret_2018 "2"; secret_2020 "z5rfSizq5aE"; secret_2020 "zfDZY9FrZGH2irN8RKV4zn8yeUX7V1tYuMepNT4HTUAJSa";
      secret_2020 "z5w4QTxUut2"; secret_2020 "m5rfSizq5aE"]
  = [Some None; Some None; Some None; Some (Some IllegalArgument); Some (Some IllegalArgument)]
  /\ Forall quiet (trace (toy_env toy_docs [secret_2020 "z5rfSizq5aE"]) (pack_signed toy toy_msg (B "did:ex:alice")))
  /\ ~ long_enough (secret_2020 "z5rfSizq5aE") /\ long_enough (secret_2020 "z5w4QTxUut2").
Proof.
  split; [vm_compute; reflexivity|]. split; [vm_compute; repeat (constructor; try exact I; try discriminate)|]. split.
  - intros H. set (d := match b58dec (B "5rfSizq5aE") with Some d => d | None => [] end).
    assert (L : 34 <= List.length d); [|vm_compute in L; lia].
    apply (H (B "5rfSizq5aE") d); [reflexivity|vm_compute; reflexivity|]. apply varint_starts. vm_compute. reflexivity.
  - intros u d E D V. exfalso. injection E as <-. apply varint_starts in V.
    assert (Q : match b58dec (B "5w4QTxUut2") with Some d => varint_dec 5 d | None => None end <> Some 0x1300%N) by (vm_compute; discriminate).
    change (b58dec (B "5w4QTxUut2") = Some d) in D. rewrite D in Q. exact (Q V).
Qed.
Example C21_cases : run (toy_env toy_docs []) (wrap_in_forward toy (B "{}") None (B "did:ex:bob") [] AnonXc20p) = Panic
  /\ (exists t, run (toy_env toy_docs []) (wrap_in_forward toy (toy_pack None None false false) None (B "did:ex:bob") [B "did:ex:med2#x"] AnonXc20p) = Ok t).
Proof. split; [reflexivity|]. eexists. vm_compute. reflexivity. Qed.

(** C54.  Packing with encryption panics exactly when the message is to be signed and
    the first secret it is given is too short.  The secret that encryption uses never makes it
    panic. *)
Theorem C54_encrypted_iff : forall C m to from sign_by o tr x, exec (pack_encrypted C m to from sign_by o) tr x -> Forall quiet tr ->
  (x = Panic <-> sign_by <> None /\ exists a kid s b, tr = a ++ Ev (OGetSecret kid) (Ok (Some s)) :: b
                   /\ (forall id r, ~ In (Ev (OGetSecret id) r) a) /\ ~ long_enough s).
Proof.
  intros C m to from s o tr x H Q. rewrite (encrypted_panics C m to from s o tr x H Q). split; intros [N E]; split; auto.
  - destruct E as (kid & sec & (a & b & -> & F) & L). exists a, kid, sec, b. repeat split; auto.
    intros id r I. rewrite Forall_forall in F. exact (F _ I).
  - destruct E as (a & kid & sec & b & -> & F & L). exists kid, sec. split; auto. exists a, b. split; auto.
    apply Forall_forall. intros e I. destruct e as [[d|d|d|d] r]; try exact Logic.I. exact (F _ _ I).
Qed.
Print Assumptions C54_encrypted_iff.
Definition encrypts_with (secs : list secret) (from sign : option bytes) : option (option errkind) :=
  match run (toy_env toy_docs secs) (pack_encrypted toy toy_msg (B "did:ex:bob") from sign default_pack_options) with
  | Ok _ => None | Err k => Some (Some k) | Panic => Some None end.
Definition alice : option bytes := Some (B "did:ex:alice").
Definition short_agreement : secret := mkSecret (B "did:ex:alice#x") Ed25519VerificationKey2018 (MBase58 (B "2")).
Example C54_encrypted_cases :
  encrypts_with (sec_alice ++ [secret_2018 "2"]) alice alice = None
  /\ encrypts_with [sec_jwk "did:ex:alice#x" KX25519 "ax"; secret_2018 "2"] alice alice = Some None
  /\ encrypts_with [sec_jwk "did:ex:alice#x" KX25519 "ax"; secret_2018 "2"] alice None = None
  /\ encrypts_with (short_agreement :: tl sec_alice) (Some (B "did:ex:alice#x")) alice = Some (Some InvalidState)
  /\ ~ long_enough short_agreement.
Proof.
  repeat split; try (vm_compute; reflexivity). intros H. specialize (H [ascii_of_nat 1]). cbn in H.
  assert (E : b58dec (B "2") = Some [ascii_of_nat 1]) by (vm_compute; reflexivity). specialize (H E). lia.
Qed.
