(** Reading depends on what a text denotes, not on how it is spelled. *)
From Verif.Model Require Import Prelude Utf8 Json Serde DidDoc Crypto Keys Effects Jws Jwe Message FromPrior Pack Routing Unpack Bindings DocJson.
From Verif.Spec Require Import Codec Small Names Text Wire Grammar.
From Verif.Proofs Require Import Lib JsonP JsonDec CodecP TextP WireP GrammarP.

Section Spell.
Variable fp : bytes -> option bytes.
(** [b]: escapes count. *)
Variable b : bool.

(** The same document, spelled in two ways. *)
Inductive same : raw -> raw -> Prop :=
| sm_null : same RNull RNull
| sm_bool x : same (RBool x) (RBool x)
| sm_num n i f n' i' f' : num_of fp n i f = num_of fp n' i' f' -> same (RNum n i f) (RNum n' i' f')
| sm_str e e' rd : (b = true -> e = e') -> same (RStr e rd) (RStr e' rd)
| sm_arr l l' tl : Forall2 same l l' -> same (RArr l tl) (RArr l' tl)
| sm_obj l l' tl : Forall2 (fun x x' => fst x = fst x' /\ same (snd x) (snd x')) l l' -> same (RObj l tl) (RObj l' tl).
Definition msame (x x' : (jerr + bytes) * raw) : Prop := fst x = fst x' /\ same (snd x) (snd x').
(** A reader that does not see the difference. *)
Definition blind {A} (f : raw -> res A) : Prop := forall r r', same r r' -> f r = f r'.

Lemma blind_mismatch {A} : blind (@mismatch A).
Proof. intros r r' S. destruct S; reflexivity. Qed.
Lemma blind_string : blind de_string.
Proof. intros r r' S. destruct S; reflexivity. Qed.
Lemma blind_borrowed : b = true -> blind de_borrowed.
Proof. intros Hb r r' S. destruct S; try reflexivity. now rewrite (H Hb). Qed.
Lemma blind_bool : blind de_bool.
Proof. intros r r' S. destruct S; reflexivity. Qed.
Lemma blind_u64 : blind (de_u64 fp).
Proof. intros r r' S. destruct S; try reflexivity. cbn. now rewrite H. Qed.
Lemma blind_option {A} (f : raw -> res A) : blind f -> blind (de_option f).
Proof. intros F r r' S. pose proof (F r r' S) as E. destruct S; cbn; now rewrite ?E. Qed.
Lemma blind_rmap {A} (f : raw -> res A) l l' : blind f -> Forall2 same l l' -> rmap f l = rmap f l'.
Proof. intros F S. induction S as [|x x' l l' S1 S IH]; [reflexivity|]. cbn. now rewrite (F _ _ S1), IH. Qed.
Lemma blind_vec {A} (f : raw -> res A) : blind f -> blind (de_vec f).
Proof. intros F r r' S. destruct S; try reflexivity. cbn. now rewrite (blind_rmap f l l'). Qed.
Lemma blind_map {A B} (f : raw -> res A) (g : A -> res B) : blind f -> blind (fun r => let? a := f r in g a).
Proof. intros F r r' S. now rewrite (F _ _ S). Qed.
Lemma blind_once {A} (cur : option A) f : blind f -> blind (once cur f).
Proof. intros F r r' S. destruct cur; cbn; auto. now rewrite (F _ _ S). Qed.
Lemma blind_walk {St} (step : St -> bytes -> raw -> res St) l l' tl : (forall s k, blind (step s k)) ->
  Forall2 msame l l' -> forall s, walk step s l tl = walk step s l' tl.
Proof.
  intros F S. induction S as [|[k x] [k' x'] l l' [S1 S2] S IH]; intros s; [reflexivity|]. cbn in *. subst k'.
  destruct (rd_str k); cbn; auto. rewrite (F s a _ _ S2). destruct (step s a x'); cbn; auto.
Qed.
Lemma same_ind' (P : raw -> raw -> Prop) :
  P RNull RNull -> (forall x, P (RBool x) (RBool x)) ->
  (forall n i f n' i' f', num_of fp n i f = num_of fp n' i' f' -> P (RNum n i f) (RNum n' i' f')) ->
  (forall e e' rd, (b = true -> e = e') -> P (RStr e rd) (RStr e' rd)) ->
  (forall l l' tl, Forall2 same l l' -> Forall2 P l l' -> P (RArr l tl) (RArr l' tl)) ->
  (forall l l' tl, Forall2 msame l l' -> Forall2 (fun x x' => fst x = fst x' /\ P (snd x) (snd x')) l l' -> P (RObj l tl) (RObj l' tl)) ->
  forall r r', same r r' -> P r r'.
Proof.
  intros H1 H2 H3 H4 H5 H6. fix IH 3. intros r r' S. destruct S as [|x|n i f n' i' f' H|e e' rd H|l l' tl H|l l' tl H].
  - exact H1.
  - apply H2.
  - now apply H3.
  - now apply H4.
  - apply H5; [exact H|]. induction H; constructor; [apply IH; assumption|assumption].
  - apply H6; [exact H|]. induction H as [|x x' l l' [A B0] H IHl]; constructor; [split; [assumption|apply IH; assumption]|assumption].
Qed.
Lemma blind_skip : blind skip.
Proof.
  intros r r' S. induction S as [| | | |l l' tl _ F|l l' tl _ F] using same_ind'; try reflexivity.
  - cbn. f_equal. induction F as [|x x' l l' E F IH]; cbn; auto. now rewrite E, IH.
  - cbn. f_equal. induction F as [|[k x] [k' x'] l l' [_ E] F IH]; cbn in *; auto. now rewrite E, IH.
Qed.
Lemma blind_content : forall d, blind (to_content fp d).
Proof.
  intros d r r' S. revert d. induction S as [| |n i f n' i' f' H| |l l' tl _ F|l l' tl _ F] using same_ind'; intros d; try reflexivity.
  - cbn. now rewrite H.
  - rewrite !to_content_arr. destruct (c_enter d) as [d'| |]; cbn [rbind]; auto.
    assert (E : c_arr fp d' l = c_arr fp d' l'); [|now rewrite E].
    induction F as [|x x' l l' E F IH]; cbn; auto. now rewrite (E d'), IH.
  - rewrite !to_content_obj. destruct (c_enter d) as [d'| |]; cbn [rbind]; auto.
    assert (E : c_obj fp d' l = c_obj fp d' l'); [|now rewrite E].
    induction F as [|[k x] [k' x'] l l' [K E] F IH]; cbn in *; auto. subst. now rewrite (E d'), IH.
Qed.
Lemma blind_value d : blind (to_value fp d).
Proof. apply blind_map, blind_content. Qed.

(** The elements of a record written as an array. *)
Lemma elem_same {A B} (f : raw -> res A) l l' tl (g g' : A * list raw -> res B) : blind f -> Forall2 same l l' ->
  (forall a m m', Forall2 same m m' -> g (a, m) = g' (a, m')) ->
  (let? p := elem f l tl in g p) = (let? p := elem f l' tl in g' p).
Proof.
  intros F S K. destruct S as [|x x' l l' S1 S]; cbn.
  - destruct tl; reflexivity.
  - rewrite (F _ _ S1). destruct (f x'); cbn; auto.
Qed.
Lemma elem_or_same {A B} (d : A) (f : raw -> res A) l l' tl (g g' : A * list raw -> res B) : blind f -> Forall2 same l l' ->
  (forall a m m', Forall2 same m m' -> g (a, m) = g' (a, m')) ->
  (let? p := elem_or d f l tl in g p) = (let? p := elem_or d f l' tl in g' p).
Proof.
  intros F S K. destruct S as [|x x' l l' S1 S]; cbn.
  - destruct tl; cbn; auto.
  - rewrite (F _ _ S1). destruct (f x'); cbn; auto.
Qed.
Lemma end_seq_same l l' tl : Forall2 same l l' -> end_seq l tl = end_seq l' tl.
Proof. intros S. destruct S; reflexivity. Qed.

Lemma blind_unit_enum {A} (f : bytes -> option A) : blind (de_unit_enum f).
Proof.
  intros r r' S. destruct S as [| | | |l l' tl H|l l' tl H]; try reflexivity.
  destruct H as [|[k x] [k' x'] l l' [K S] H]; [reflexivity|]. cbn in *. subst k'.
  destruct (rd_str k); cbn; auto. destruct (ok_or Malformed (f a)); cbn; auto.
  destruct S; cbn; auto. destruct H; reflexivity.
Qed.
End Spell.
Global Hint Resolve blind_string blind_bool blind_u64 blind_option blind_vec blind_once blind_map blind_skip blind_content blind_value blind_unit_enum : blind.

Lemma blind_borrowed_true fp : blind fp true de_borrowed.
Proof. now apply blind_borrowed. Qed.
Global Hint Resolve blind_borrowed_true : blind.

(** Records: one lemma per derived reader. *)
Ltac bsolve := auto 8 with blind.
Ltac bswap r r' S := repeat match goal with
  | |- context [?f r] => let H := fresh in
      assert (H : f r = f r') by (match type of S with same ?fp ?b _ _ => refine ((_ : blind fp b f) r r' S); solve [bsolve] end); rewrite H; clear H
  end.
(** One member. *)
Ltac bstep := intros; repeat match goal with
  | s : (_ * _)%type |- _ => destruct s
  | s : astate |- _ => destruct s
  | s : mstate |- _ => destruct s
  | s : fpstate |- _ => destruct s
  end; let r := fresh "r" in let r' := fresh "r'" in let S := fresh "S" in intros r r' S; cbv beta iota; bswap r r' S; reflexivity.
(** The elements in order. *)
Ltac belems := repeat match goal with H : Forall2 (same ?fp ?b) ?l ?l' |- context [?l] =>
    (first [apply (elem_same fp b _ l l')|apply (elem_or_same fp b _ _ l l')]); [solve [bsolve]|exact H|clear H; intros; cbv beta iota] end;
  match goal with H : Forall2 (same ?fp ?b) ?m ?m' |- context [end_seq ?m ?tl] => rewrite (end_seq_same fp b m m' tl H); reflexivity end.
Ltac bobj := match goal with H : Forall2 _ _ _ |- _ => erewrite blind_walk; [reflexivity| |exact H]; cbv beta iota end.
Ltac brecord D := let S := fresh "S" in intros r r' S; destruct S as [| | | |l l' tl S|l l' tl S]; unfold D;
  [reflexivity|reflexivity|reflexivity|reflexivity| |]; [first [reflexivity|belems] | bobj].

Section Records.
Variables (fp : bytes -> option bytes) (b : bool).
Lemma blind_adata : blind fp b (de_adata fp).
Proof. apply blind_map. bsolve. Qed.
Lemma blind_ostr : blind fp b de_ostr. Proof. unfold de_ostr. bsolve. Qed.
Lemma blind_ou64 : blind fp b (de_ou64 fp). Proof. unfold de_ou64. bsolve. Qed.
Hint Resolve blind_adata blind_ostr blind_ou64 : blind.
Lemma blind_attachment : blind fp b (de_attachment fp).
Proof. brecord de_attachment. unfold att_step. bstep. Qed.
Hint Resolve blind_attachment : blind.
Lemma blind_message : blind fp b (de_message fp).
Proof. brecord de_message. unfold msg_step. bstep. Qed.
Lemma blind_vm : blind fp b (de_vm fp).
Proof. brecord de_vm. unfold vm_step. bstep. Qed.
Lemma blind_service : blind fp b (de_service fp).
Proof. brecord de_service. unfold service_step. bstep. Qed.
Hint Resolve blind_vm blind_service : blind.
Lemma blind_doc : blind fp b (de_doc fp).
Proof. brecord de_doc. bstep. Qed.
Lemma blind_secret : blind fp b (de_secret fp).
Proof. brecord de_secret. unfold secret_step. bstep. Qed.
Lemma blind_headers d : blind fp b (de_headers fp d).
Proof. brecord de_headers. bstep. Qed.
Lemma blind_unpack_options : blind fp b de_unpack_options.
Proof. brecord de_unpack_options. bstep. Qed.
Hint Resolve blind_headers : blind.
Lemma blind_pack_options : blind fp b (de_pack_options fp).
Proof. brecord de_pack_options. bstep. Qed.
Lemma blind_jws_alg : blind fp b de_jws_alg. Proof. apply blind_map. bsolve. Qed.
Lemma blind_jwe_alg : blind fp b de_jwe_alg. Proof. apply blind_map. bsolve. Qed.
Lemma blind_jwe_enc : blind fp b de_jwe_enc. Proof. apply blind_map. bsolve. Qed.
Hint Resolve blind_jws_alg blind_jwe_alg blind_jwe_enc : blind.
Lemma blind_jws_header : blind fp b de_jws_header.
Proof. brecord de_jws_header. bstep. Qed.
Lemma blind_kid_header : blind fp true de_kid_header.
Proof. brecord de_kid_header. bstep. Qed.
Hint Resolve blind_kid_header : blind.
Lemma blind_recipient : blind fp true de_recipient.
Proof. brecord de_recipient. bstep. Qed.
Lemma blind_jws_sig : blind fp true de_jws_sig.
Proof. brecord de_jws_sig. bstep. Qed.
Hint Resolve blind_recipient blind_jws_sig : blind.
Lemma blind_jwe : blind fp true de_jwe.
Proof. brecord de_jwe. bstep. Qed.
Lemma blind_jws : blind fp true de_jws.
Proof. brecord de_jws. bstep. Qed.
End Records.
Lemma blind_compact_header fp : blind fp true de_compact_header.
Proof. pose proof (blind_jws_alg fp true). brecord de_compact_header. bstep. Qed.
Section Claims.
Variables (C : crypto) (b : bool).
Hint Resolve blind_ostr blind_ou64 blind_jwe_alg blind_jwe_enc : blind.
Lemma blind_prior : blind (fparse C) b (de_from_prior C).
Proof. brecord de_from_prior. unfold fp_step. bstep. Qed.
Lemma blind_epk : blind (fparse C) b (de_epk C).
Proof. unfold de_epk. bsolve. Qed.
End Claims.
Lemma blind_jwe_header C : blind (fparse C) true (de_jwe_header C).
Proof. pose proof (blind_epk C true). pose proof (blind_jwe_alg (fparse C) true). pose proof (blind_jwe_enc (fparse C) true). brecord de_jwe_header. bstep. Qed.

(** ** Texts *)
Section Texts.
Variable fp : bytes -> option bytes.
Hypothesis stable : floats_stable fp.
Lemma num_means_ok neg i fe n : num_means fp neg i fe n -> json_number fp n.
Proof.
  intros M. destruct M as [i n D L|i n D L|neg i fe x N F]; cbn; auto. exact (stable _ _ F).
Qed.
Lemma Forall2_cons_iff {A B} (R : A -> B -> Prop) a b l m : Forall2 R (a :: l) (b :: m) <-> R a b /\ Forall2 R l m.
Proof. split; [intros H; now inversion H|intros [H1 H2]; now constructor]. Qed.
Lemma means_tree d l v : means fp d l v -> json_tree fp d v.
Proof.
  revert d v. induction l as [|x|n i f|cs|ls IH|ms IH] using lex_ind'; intros d v M; inversion M; subst; constructor.
  - eapply num_means_ok; eauto.
  - match goal with H : str_means _ _ |- _ => destruct H as [_ H] end. now apply utf8_iff.
  - intros x I. match goal with H : Forall2 _ ls vs |- _ => rename H into F end. clear M. induction F as [|l0 v0 ls vs F1 F IHF]; [destruct I|].
    inversion IH; subst. destruct I as [<-|I]; auto.
  - intros k x I. clear M. match goal with H : Forall2 (fun m kv => str_means _ _) ms kvs |- _ => rename H into FK end. match goal with H : Forall2 (fun m kv => means _ _ _ _) ms kvs |- _ => rename H into FV end. 
    induction FK as [|m kv ms kvs F1 F IHF]; [destruct I|].
    apply Forall2_cons_iff in FV as [V1 V]. apply Forall_cons_iff in IH as [IH1 IH]. destruct I as [->|I]; [|now apply IHF].
    cbn [fst snd] in *. split; [apply utf8_iff, F1|auto].
Qed.
Lemma escaped_iff s : escaped s <-> existsb must_escape s = true.
Proof.
  unfold escaped. rewrite existsb_exists. split; intros (c & I & H); exists c; (split; [exact I|]).
  - destruct (esc_cases c) as [(M & _ & Q & Bs & Ct)|[(M & _)|(M & _)]]; auto. exfalso.
    unfold is_quote, is_bslash, is_ctrl in *. apply Ascii.eqb_neq in Q, Bs. apply N.ltb_ge in Ct. destruct H as [H|[H|H]]; [lia|auto|auto].
  - clear I. revert H. destruct c as [[] [] [] [] [] [] [] []]; vm_compute; intros; try discriminate; auto.
Qed.
Lemma plain_decodes cs s : Forall (fun x => exists c, x = CPlain c) cs -> Forall char_ok cs -> decodes cs s -> existsb is_esc cs = false /\ existsb must_escape s = false.
Proof.
  intros F O D. induction D as [|c cs s D IH| | |]; [auto| | | |]; inversion F as [|? ? [c9 E] F']; inversion O; subst; try discriminate.
  destruct IH as [IH1 IH2]; auto. split; [exact IH1|]. cbn. rewrite IH2, orb_false_r.
  match goal with H : char_ok (CPlain c) |- _ => apply plain_iff in H as (Q & Bs & Ct) end.
  revert Q Bs Ct. clear. destruct c as [[] [] [] [] [] [] [] []]; vm_compute; congruence.
Qed.
Lemma decodes_fun cs s s' : Forall char_ok cs -> decodes cs s -> decodes cs s' -> s = s'.
Proof. intros O D D'. apply (decodes_iff cs O) in D, D'. congruence. Qed.
Lemma escaped_decodes cs s : Forall char_ok cs -> decodes cs s -> existsb must_escape s = true -> existsb is_esc cs = true.
Proof.
  intros O D E. destruct (existsb is_esc cs) eqn:K; auto. exfalso.
  assert (F : Forall (fun x => exists c, x = CPlain c) cs).
  { clear -K. induction cs as [|x cs IH]; constructor; cbn in K; apply orb_false_iff in K as [K1 K2]; auto.
    destruct x; try discriminate. eauto. }
  destruct (plain_decodes cs s F O D). congruence.
Qed.
Lemma rd_means cs s : Forall char_ok cs -> str_means cs s -> rd_utf8 cs = inr s.
Proof. intros O M. apply (str_means_iff cs s O) in M. destruct (rd_utf8 cs); cbn in M; congruence. Qed.
Lemma means_same b l : lex_ok l -> (b = true -> no_needless_escape l) -> forall d v, means fp d l v -> same fp b (raw_lex l) (raw_of v).
Proof.
  induction l as [|x|n i f|cs|ls IH|ms IH] using lex_ind'; intros O NE d v M; inversion M; subst; cbn [raw_lex raw_of].
  - constructor.
  - constructor.
  - cbn in O. match goal with H : num_means _ _ _ _ _ |- _ => rename H into NM end.
    destruct (raw_num fp _ (json_number_ok fp _ (num_means_ok _ _ _ _ NM))) as (n' & i' & f' & E & V). cbn in E. rewrite E.
    apply num_means_iff in NM; auto. constructor. congruence.
  - cbn in O. match goal with H : str_means _ _ |- _ => rename H into SM end. rewrite (rd_means cs s O SM). constructor. intros Hb.
    specialize (NE Hb). destruct SM as [D _]. inversion NE as [| | |cs' F|cs' s' D' E| |]; subst.
    + destruct (plain_decodes cs s F O D) as [-> ->]. reflexivity.
    + rewrite (decodes_fun cs s' s O D' D) in E. apply escaped_iff in E. rewrite E. now apply escaped_decodes with (s := s).
  - cbn in O. apply fold_and in O. constructor. match goal with H : Forall2 _ ls vs |- _ => rename H into F end.
    assert (NE' : b = true -> Forall no_needless_escape ls) by (intros Hb; specialize (NE Hb); now inversion NE).
    clear M NE. induction F as [|l0 v0 ls vs F1 F IHF]; cbn; constructor.
    + inversion IH; inversion O; subst. eapply H1; eauto. intros Hb. specialize (NE' Hb). now inversion NE'.
    + inversion IH; inversion O; subst. apply IHF; auto. intros Hb. specialize (NE' Hb). now inversion NE'.
  - cbn in O. apply (fold_and (fun m : list schar * lex => Forall char_ok (fst m) /\ lex_ok (snd m))) in O. constructor.
    assert (NE' : b = true -> Forall (fun m => no_needless_escape (snd m)) ms) by (intros Hb; specialize (NE Hb); now inversion NE).
    clear M NE. match goal with H : Forall2 (fun m kv => str_means _ _) ms kvs |- _ => rename H into FK end. match goal with H : Forall2 (fun m kv => means _ _ _ _) ms kvs |- _ => rename H into FV end. 
    induction FK as [|m kv ms kvs F1 F IHF]; cbn; [constructor|].
    apply Forall2_cons_iff in FV as [V1 V]. apply Forall_cons_iff in IH as [IH1 IH]. apply Forall_cons_iff in O as [O1 O]. destruct m, kv.
    constructor; cbn in *.
    + split; [apply rd_means; tauto|]. eapply IH1; eauto; [tauto|]. intros Hb. specialize (NE' Hb). now inversion NE'.
    + apply IHF; auto. intros Hb. specialize (NE' Hb). now inversion NE'.
Qed.
Lemma denotes_tree t v : json_denotes fp t v -> json_tree fp 127 v.
Proof. intros (l & _ & M). eapply means_tree; eauto. Qed.
Lemma plainly_denotes t v : denotes_plainly fp t v -> json_denotes fp t v.
Proof. intros (l & S & M & _). exists l. auto. Qed.
Lemma from_json_lex {A} (dec : raw -> res A) l t : spells l t -> from_json dec t = dec (raw_lex l).
Proof. intros S. unfold from_json. rewrite (parse_spells _ _ S). destruct (dec (raw_lex l)); reflexivity. Qed.
Lemma tree_printable v : json_tree fp 127 v -> printable v.
Proof. intros T. eapply wfv_printable, wf_of; eauto. Qed.
Lemma respelled {A} (dec : raw -> res A) t v : blind fp false dec -> json_denotes fp t v -> from_json dec t = from_json dec (print v).
Proof.
  intros K D. pose proof (denotes_tree _ _ D) as T. destruct D as (l & S & M). rewrite (from_json_lex dec l t S), from_json_print by now apply tree_printable.
  apply K. eapply means_same; eauto; [eapply spells_ok; eauto|discriminate].
Qed.
Lemma respelled_plainly {A} (dec : raw -> res A) t v : blind fp true dec -> denotes_plainly fp t v -> from_json dec t = from_json dec (print v).
Proof.
  intros K D. pose proof (denotes_tree _ _ (plainly_denotes _ _ D)) as T. destruct D as (l & S & M & NE).
  rewrite (from_json_lex dec l t S), from_json_print by now apply tree_printable.
  apply K. eapply means_same; eauto. eapply spells_ok; eauto.
Qed.
End Texts.
