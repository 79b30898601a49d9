(** Malformed, InvalidState and Unsupported from rotation tokens. *)
From Verif.Model Require Import Prelude Utf8 Base64 Json Serde Base58 DidDoc Crypto Keys Effects Jws Jwe Message FromPrior Pack Routing Unpack.
From Verif.Spec Require Import Small Events Packing Conc Asked Blame Grammar Cause.
From Verif.Proofs Require Import JsonP Lib SmallP Errs Wp UnpackInv UnpackP SealP PackP RouteP AskedP BlameP GrammarP SpellP CauseP CauseK.

Section Token.
Context (C : crypto) (A : event -> Prop) (p : from_prior).
Notation P := (fun (_ : list event) (_ : op) => True).
Notation cause := (token_cause C p).
Definition tcauses {X} (h : list event) (x : res X) : Prop := match x with Err k => cause h k | _ => True end.
Notation Q := tcauses.
Lemma tc_raised h e k : failed e k -> cause (h ++ [e]) k.
Proof. intros F. left. exists e. split; auto. apply last_last. Qed.
Ltac leaf := cbv beta; lazymatch goal with
  | |- tcauses _ (Ok _) => exact I
  | |- tcauses _ Panic => exact I
  | |- tcauses (?h ++ [?e]) (Err ?k) => cbn [tcauses]; first [apply tc_raised; reflexivity|right; exact I|idtac]
  | |- tcauses _ (Err ?k) => cbn [tcauses]; try (right; exact I)
  | |- True => exact I
  | |- _ => idtac
  end.
Ltac none := match goal with E : ok_or _ ?x = Err _ |- _ => destruct x; [discriminate|]; injection E as <-; right; exact I end.
Lemma bad_did d : negb (is_did d) || is_some (snd (did_or_url d)) = true -> ~ did_text d \/ In "#"%char d.
Proof.
  intros H. apply orb_true_iff in H as [H|H]; [left; now apply negb_did|right].
  destruct (in_dec ascii_dec "#"%char d) as [I|I]; auto. apply did_or_url_none in I. rewrite I in H. discriminate.
Qed.
Lemma validate_cause h ik k : validate_pack p ik = Err k -> cause h k.
Proof.
  unfold validate_pack. destruct (_ || _) eqn:E1; [intros E; injection E as <-; right; left; right; exists (fp_iss p); split; auto using bad_did|].
  destruct (negb (is_did (fp_sub p)) || _) eqn:E2; [intros E; injection E as <-; right; left; right; exists (fp_sub p); split; auto using bad_did|].
  destruct (beq _ _) eqn:E3; [intros E; injection E as <-; right; left; left; now apply beq_eq|].
  destruct ik as [u|]; [|discriminate]. destruct (did_or_url u) as [d x]. 
  intros E. destruct (is_some x); cbn [negb] in E; [|injection E as <-; right; exact I].
  destruct (beq d (fp_iss p)); cbn [negb] in E; [discriminate|injection E as <-; right; exact I].
Qed.
Lemma tpack ik h : wp A P h (from_prior_pack C p ik) Q.
Proof.
  unfold from_prior_pack. wstep; leaf. 2: eapply validate_cause; eassumption.
  cbv zeta. wstep; leaf. wstep; leaf. 2: none. wstep; leaf.
  2:{ destruct ik as [u|]; [|discriminate]. destruct (did_or_url u) as [d x]. destruct x; cbn [ok_or rbind] in *; [|match goal with E : Err _ = Err _ |- _ => injection E as <- end; right; exact I].
      match goal with E : context [negb ?b] |- _ => destruct (negb b) end; [match goal with E : Err _ = Err _ |- _ => injection E as <- end; right; exact I|].
      match goal with E : context [ok_or _ ?o] |- _ => destruct o; cbn [ok_or rbind] in E; [discriminate|injection E as <-] end. right; exact I. }
  wstep; leaf. wstep; leaf. 2: none. wstep; leaf. wstep; leaf. 2: none.
  match goal with E : ok_or _ ?o = Ok ?x |- _ => apply ok_or_Ok in E; subst o end.
  match goal with |- context [sec_key_pair C ?s] => set (sec := s) in * end.
  wstep; leaf.
  2:{ match goal with E : sec_key_pair C sec = Err ?k |- _ => destruct (sec_pair_err C sec k E) as [->|[[(s & M) [->| ->]]|[-> U]]] end.
      - right. right. eexists _, sec. split; [apply in_last|assumption].
      - right. exact I.
      - right. left. right. eexists _, sec, s. split; [apply in_last|exact M].
      - right. eexists _, sec. split; [apply in_last|]. rewrite U. intros alg W. inversion W. }
  match goal with |- context [let (_, _) := ?x in _] => destruct x as [ka k] end.
  match goal with E : sec_key_pair C sec = Ok _ |- _ => apply sec_alg in E as -> end.
  wstep; leaf.
  2:{ match goal with E : sign_alg_of _ = Err ?k |- _ => assert (k = Unsupported /\ forall alg, ~ works_with alg (sec_key_alg sec)) as [-> N]
        by (unfold sign_alg_of in E; destruct (sec_key_alg sec); try discriminate; injection E as <-; (split; auto; intros alg W; inversion W)) end.
      right. eexists _, sec. split; [apply in_last|exact N]. }
  wstep; leaf; [wstep; leaf|].
  match goal with E : sign_alg_of _ = Ok _, E2 : jws_sign_compact _ _ _ _ _ _ _ = Err _ |- _ => unfold jws_sign_compact in E2; destruct (sec_key_alg sec); try discriminate E; injection E as <-; cbn [sig_type rbind] in E2;
    (destruct (key_sign _ _ _ _ _) eqn:Ks in E2; cbn in E2; [discriminate|]; injection E2 as <-; right; right; eauto) end.
Qed.
End Token.
Lemma token_causes C p ik tr k : exec (from_prior_pack C p ik) tr (Err k) -> token_cause C p tr k.
Proof.
  intros E. apply (wp_exec (fun _ => True) (fun _ _ => True) []) with (Q := tcauses C p) in E; [now destruct E|apply tpack|now apply Forall_forall].
Qed.
Lemma token_read_causes C jwt m tr k to o : msg_from_prior m = Some jwt -> exec (from_prior_unpack C jwt) tr (Err k) -> pack_cause C m to None None o tr k.
Proof.
  intros M E. apply plain_causes. unfold pack_plaintext. rewrite M. apply exec_pbind. right. left. exists k. split; auto.
  apply exec_pbind. right. left. eauto.
Qed.
