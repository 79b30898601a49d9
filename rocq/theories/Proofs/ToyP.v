(** The toy instance satisfies the assumptions of the round trip theorems, so their
    hypotheses can be met. *)
From Verif.Model Require Import Prelude Utf8 Base64 Json Serde DidDoc Crypto Keys Effects Jws Jwe Message FromPrior Pack Routing Unpack.
From Verif.Spec Require Import Small Codec Events Toy World Packing.
From Verif.Proofs Require Import Lib Base64P SerdeP TreeP SmallP UnpackInv.

Definition toy_pair (a : kalg) (p s : bytes) : Prop := p = s /\ a <> KUnsupported.

Lemma strip_app p s : strip p (p ++ s) = Some s.
Proof. induction p as [|c p IH]; cbn; auto. now rewrite Ascii.eqb_refl. Qed.
Lemma toy_jwk_back a k : a <> KUnsupported -> toy_from_jwk a (toy_jwk a k) = Some k.
Proof.
  intros N. unfold toy_from_jwk. assert (E : kalg_eqb (jwk_alg (toy_jwk a k)) a = true) by (destruct a; try reflexivity; congruence).
  rewrite E. assert (G : get_str (B "x") (toy_jwk a k) = Some (b64enc k)) by (destruct a; reflexivity). rewrite G. apply b64_roundtrip.
Qed.

Theorem toy_lawful : lawful toy toy_pair.
Proof.
  split; cbn -[toy_jwk toy_from_jwk toy_kdf toy_kalg toy_sig B].
  - intros a st p s m sg [-> _] E. injection E as <-. now rewrite beq_refl.
  - intros a e epk jwk p s alg apu apv kw [-> N] E1 E2 E3. injection E1 as <-. injection E2 as <-.
    exists e. split; [now apply toy_jwk_back|exact E3].
  - intros a e epk jwk p s p' s' alg apu apv tag kw [-> N] [-> _] E1 E2 E3. injection E1 as <-. injection E2 as <-.
    exists e. split; [now apply toy_jwk_back|exact E3].
  - intros kw x w E. injection E as <-. apply strip_app.
  - reflexivity.
  - intros ce k iv aad pt ct tag E. injection E as <- <-. unfold toy_aead_dec. rewrite rev_app_distr, rev_involutive. apply strip_app.
  - intros a e k v _ E. injection E as <-. unfold toy_jwk. constructor.
    + destruct a; repeat (constructor; [vm_compute; reflexivity|]); constructor.
    + intros n x I. cbn [In] in I.
      assert (U : forall k', utf8 (b64enc k') = true) by apply b64_utf8.
      repeat (destruct I as [I|I]; [injection I as <- <-; split; [destruct a; reflexivity|constructor; destruct a; auto; reflexivity]|]). destruct I.
Qed.

(** ** The example resolvers over a list of documents and secrets *)
Definition dir_of (docs : list diddoc) (did : bytes) : option diddoc := find_first (fun d => beq (doc_id d) did) docs.
Definition own_of (secs : list secret) (id : bytes) : option secret := find_first (fun s => beq (sec_id s) id) secs.

Lemma toy_env_answers docs secs o : answers (dir_of docs) (own_of secs) (Ev o (toy_env docs secs o)).
Proof.
  destruct o; cbn; auto.
  - destruct (example_find secs ids) as (l & E & _ & _ & I & _). exists l. split; auto. intros i. rewrite I.
    unfold example_get_secret, own_of. split; intros [A (s & S)]; split; auto; exists s; congruence.
  - destruct u; cbn; auto.
Qed.
Lemma toy_env_trace docs secs {A} (p : prog A) : Forall (answers (dir_of docs) (own_of secs)) (trace (toy_env docs secs) p).
Proof. induction p as [a|o k IH]; cbn [trace]; constructor; auto using toy_env_answers. Qed.

Lemma dir_of_In docs did doc : dir_of docs did = Some doc -> In doc docs /\ did = doc_id doc.
Proof. intros H. apply find_first_some in H as [I E]. apply beq_eq in E. auto. Qed.

Definition key_char (c : ascii) : bool := (32 <=? N_of_ascii c)%N && negb (Ascii.eqb c """") && negb (Ascii.eqb c "\").
Lemma key_id_check s : utf8 s && forallb key_char s = true -> key_id_ok s.
Proof.
  intros H. apply andb_prop in H as [U H]. split; auto. apply Forall_forall. intros c I. apply (proj1 (forallb_forall _ _) H) in I.
  unfold key_char in I. apply andb_prop in I as [I I3]. apply andb_prop in I as [I1 I2].
  split; [now apply N.leb_le|]. split; intros ->; discriminate.
Qed.
Definition url_check (did url : bytes) : bool :=
  match split_once "#" url with Some (d, _) => beq d did | None => false end.
Lemma url_check_ok did url : url_check did url = true -> url_of did url.
Proof.
  unfold url_check. destruct (split_once "#" url) as [[d f]|] eqn:E; [|discriminate]. intros H. apply beq_eq in H. subst d.
  apply split_once_some in E as [-> N]. exists f. auto.
Qed.
Definition directory_check (docs : list diddoc) : bool :=
  forallb (fun d => forallb (fun kid => url_check (doc_id d) kid && (utf8 kid && forallb key_char kid))
                      (doc_key_agreement d ++ doc_authentication d)) docs.
Lemma directory_check_ok docs : directory_check docs = true -> directory (dir_of docs).
Proof.
  intros H did doc D. apply dir_of_In in D as [I ->]. intros kid K. apply (proj1 (forallb_forall _ _) H) in I.
  apply (proj1 (forallb_forall _ _) I) in K. apply andb_prop in K as [K1 K2]. auto using url_check_ok, key_id_check.
Qed.

Definition same_key (vm : verification_method) (s : secret) : bool :=
  match vm_key_pair toy vm, sec_key_pair toy s with
  | Ok (a, p), Ok (a', k) => kalg_eqb a a' && negb (kalg_eqb a KUnsupported) && beq p k
  | _, _ => false
  end.
Definition match_check (docs : list diddoc) (secs : list secret) : bool :=
  forallb (fun d => forallb (fun kid =>
    match own_of secs kid with
    | None => true
    | Some s => match find_first (fun v => beq (vm_id v) kid) (doc_verification_method d) with
                | Some vm => same_key vm s | None => false end
    end) (doc_key_agreement d ++ doc_authentication d)) docs.
Lemma match_check_ok docs secs : match_check docs secs = true -> secrets_match toy toy_pair (dir_of docs) (own_of secs).
Proof.
  intros H did doc kid sec rel R D K O. apply dir_of_In in D as [I ->]. apply (proj1 (forallb_forall _ _) H) in I.
  assert (K' : In kid (doc_key_agreement doc ++ doc_authentication doc)) by (apply in_or_app; destruct R as [-> | ->]; auto).
  apply (proj1 (forallb_forall _ _) I) in K'. rewrite O in K'.
  destruct (find_first _ _) as [vm|] eqn:F; [|discriminate]. unfold same_key in K'.
  destruct (vm_key_pair toy vm) as [[a p]| |] eqn:V; try discriminate. destruct (sec_key_pair toy sec) as [[a' k]| |] eqn:S; try discriminate.
  apply andb_prop in K' as [K' E]. apply andb_prop in K' as [K1 K2]. apply kalg_eqb_eq in K1. apply beq_eq in E. subst a' k.
  exists a, p, p. split; [|split; [reflexivity|split; [reflexivity|intros ->; discriminate]]].
  split; auto. exists vm. split; auto. apply find_first_first in F. revert F. apply first_with_ext. intros; apply beq_eq.
Qed.

Lemma filter_picked {A} (f : A -> bool) l : picked (fun x => f x = true) l (filter f l).
Proof. induction l as [|x l IH]; cbn; [constructor|]. destruct (f x) eqn:E; [now constructor|]. apply picked_skip; auto. congruence. Qed.
Lemma toy_env_in_order docs secs {A} (p : prog A) : Forall in_order (trace (toy_env docs secs) p).
Proof.
  induction p as [a|o k IH]; cbn; constructor; auto. destruct o; cbn; auto. eexists. apply filter_picked.
Qed.
