(** Which errors the decoders can give. *)
From Verif.Model Require Import Prelude Utf8 Base64 Json Serde DidDoc Crypto Keys Effects Jws Jwe Message FromPrior Pack Routing Unpack.
From Verif.Proofs Require Import Lib JsonP JsonDec SerdeP.

(** [errs K r]: no panic, and an error only of a kind in [K]. *)
Definition errs {A} (K : errkind -> Prop) (r : res A) : Prop :=
  match r with Ok _ => True | Err k => K k | Panic => False end.
(** Every error in the tree satisfies [J]. *)
Definition clean_rd (J : jerr -> Prop) (rd : jerr + bytes) : Prop := match rd with inl e => J e | inr _ => True end.
Definition clean_tl (J : jerr -> Prop) (tl : option jerr) : Prop := match tl with Some e => J e | None => True end.
Fixpoint clean (J : jerr -> Prop) (r : raw) : Prop :=
  match r with
  | RStr _ rd => clean_rd J rd
  | RArr l tl => fold_right (fun x P => clean J x /\ P) True l /\ clean_tl J tl
  | RObj l tl => fold_right (fun kv P => (clean_rd J (fst kv) /\ clean J (snd kv)) /\ P) True l /\ clean_tl J tl
  | RErr a b => J a /\ J b
  | _ => True
  end.
Definition cmem (J : jerr -> Prop) (kv : (jerr + bytes) * raw) : Prop := clean_rd J (fst kv) /\ clean J (snd kv).
Lemma clean_arr J l tl : clean J (RArr l tl) <-> Forall (clean J) l /\ clean_tl J tl.
Proof. cbn [clean]. now rewrite fold_and. Qed.
Lemma clean_obj J l tl : clean J (RObj l tl) <-> Forall (cmem J) l /\ clean_tl J tl.
Proof. cbn [clean]. now rewrite fold_and. Qed.

Lemma clean_raw_of J v : printable v -> clean J (raw_of v).
Proof.
  induction v as [| b | n | s | l IH | l IH] using value_ind'; intros W; try exact I.
  - cbn. unfold num_raw. cbn in W. unfold num_lex in W. unfold pnum, pnum_body, rfail in *.
    destruct (print_number n) as [|c t]; [discriminate|].
    repeat match goal with |- context [if ?x then _ else _] => destruct x | |- context [match ?x with _ => _ end] => destruct x end; cbn in *; try discriminate; exact I.
  - apply printable_arr in W. cbn [raw_of]. apply clean_arr. split; [|exact I]. induction IH; inversion W; subst; constructor; auto.
  - apply printable_obj in W. cbn [raw_of]. apply clean_obj. split; [|exact I].
    induction IH as [|[k v] l]; inversion W as [|? ? [? ?]]; subst; constructor; auto. split; cbn; auto.
Qed.

(** Any parsed text is clean when every error is allowed. *)
Lemma clean_any r : clean (fun _ => True) r.
Proof.
  induction r as [ | | | e s | l tl IH | l tl IH | ] using raw_ind'; try exact I; cbn; auto.
  - destruct s; exact I.
  - apply clean_arr. split; auto. now destruct tl.
  - apply clean_obj. split; [|now destruct tl]. eapply Forall_impl; [|exact IH]. intros [[e|k] v] H; split; auto; exact I.
Qed.

Section Errs.
Variable K : errkind -> Prop.
Variable J : jerr -> Prop.
Hypothesis KM : K Malformed.
Hypothesis KJ : forall e, J e -> K (jkind e).

Lemma errs_bind {A B} (r : res A) (f : A -> res B) : errs K r -> (forall a, r = Ok a -> errs K (f a)) -> errs K (rbind r f).
Proof. destruct r; cbn; auto. Qed.
Lemma errs_ok_or {A} k (o : option A) : K k -> errs K (ok_or k o).
Proof. destruct o; cbn; auto. Qed.
Lemma errs_need {A} (o : option A) : errs K (need o).
Proof. now apply errs_ok_or. Qed.
Lemma errs_rd s : clean_rd J s -> errs K (rd_str s).
Proof. destruct s; cbn; auto. Qed.
Lemma errs_mismatch {A} r : clean J r -> errs K (@mismatch A r).
Proof. destruct r as [| | |? []| | |]; cbn; auto. intros []; auto. Qed.
Lemma errs_string r : clean J r -> errs K (de_string r).
Proof. destruct r; cbn; auto. - now apply errs_rd. - intros []; auto. Qed.
Lemma errs_borrowed r : clean J r -> errs K (de_borrowed r).
Proof. destruct r as [| | |[] []| | |]; cbn; auto. intros []; auto. Qed.
Lemma errs_option {A} (f : raw -> res A) r : (clean J r -> errs K (f r)) -> clean J r -> errs K (de_option f r).
Proof. intros H C. destruct r; cbn; auto; apply errs_bind; auto; intros; exact I. Qed.
Lemma errs_num fp n i f : errs K (num_of fp n i f).
Proof. unfold num_of, ok_or. repeat match goal with |- context [if ?x then _ else _] => destruct x | |- context [match ?x with _ => _ end] => destruct x end; cbn; auto. Qed.
Lemma errs_u64 fp r : clean J r -> errs K (de_u64 fp r).
Proof. destruct r; cbn; auto. - destruct (num_of fp neg int fe) as [[]| |]; cbn; auto. - destruct rd; cbn; auto. - intros []; auto. Qed.
Lemma errs_bool r : clean J r -> errs K (de_bool r).
Proof. destruct r as [| | |? []| | |]; cbn; auto. intros []; auto. Qed.
Lemma errs_close {A} tl (a : A) : clean_tl J tl -> errs K (close tl a).
Proof. destruct tl; cbn; auto. Qed.
Lemma errs_rmap {A B} (f : A -> res B) l : Forall (fun x => errs K (f x)) l -> errs K (rmap f l).
Proof. induction 1; cbn; auto. apply errs_bind; auto. intros. apply errs_bind; auto. intros; exact I. Qed.
Lemma errs_vec {A} (f : raw -> res A) r : (forall x, clean J x -> errs K (f x)) -> clean J r -> errs K (de_vec f r).
Proof.
  intros H C. destruct r; try now apply errs_mismatch. apply clean_arr in C as [C1 C2]. cbn. apply errs_bind.
  - apply errs_rmap. eapply Forall_impl; [|exact C1]. auto.
  - intros. now apply errs_close.
Qed.
Lemma errs_walk {S} (st : S -> bytes -> raw -> res S) l tl : (forall s k v, clean J v -> errs K (st s k v)) ->
  Forall (cmem J) l -> clean_tl J tl -> forall s, errs K (walk st s l tl).
Proof.
  intros H C T. induction C as [|[k v] l [C1 C2] C IH]; intros s; cbn; [now apply errs_close|].
  apply errs_bind; [now apply errs_rd|]. intros. apply errs_bind; auto.
Qed.
Lemma errs_once {A} (c : option A) f v : (clean J v -> errs K (f v)) -> clean J v -> errs K (once c f v).
Proof. intros H C. unfold once. destruct c; cbn; auto. apply errs_bind; auto. intros; exact I. Qed.
(** Elements of a sequence: the rest stays clean. *)
Lemma errs_elem {A X} (f : raw -> res A) l tl (g : A * list raw -> res X) : (forall x, clean J x -> errs K (f x)) ->
  Forall (clean J) l -> clean_tl J tl ->
  (forall a l', Forall (clean J) l' -> errs K (g (a, l'))) -> errs K (rbind (elem f l tl) g).
Proof.
  intros H C T G. unfold elem. destruct C as [|x l C1 C]; [destruct tl; cbn; auto|].
  cbn. specialize (H x C1). destruct (f x) as [a|k|]; cbn in *; auto.
Qed.
Lemma errs_end l tl : clean_tl J tl -> errs K (end_seq l tl).
Proof. intros T. destruct l; cbn; auto. now apply errs_close. Qed.
Lemma errs_content fp r : forall d, clean J r -> errs K (to_content fp d r).
Proof.
  induction r as [ | | | e s | l tl IH | l tl IH | ] using raw_ind'; intros d C; try exact I.
  - cbn. apply errs_bind; [apply errs_num|]. intros; exact I.
  - cbn. apply errs_bind; [now apply errs_rd|]. intros; exact I.
  - rewrite to_content_arr. apply clean_arr in C as [C1 C2]. apply errs_bind; [unfold c_enter; destruct d as [|[]]; cbn; auto|].
    intros d' _. apply errs_bind.
    + induction IH as [|x l Hx IH']; cbn; auto. inversion C1; subst. apply errs_bind; auto. intros. apply errs_bind; [apply IHIH'; auto|]. intros; exact I.
    + intros. destruct tl; cbn; auto.
  - rewrite to_content_obj. apply clean_obj in C as [C1 C2]. apply errs_bind; [unfold c_enter; destruct d as [|[]]; cbn; auto|].
    intros d' _. apply errs_bind.
    + induction IH as [|[k x] l Hx IH']; cbn; auto. inversion C1 as [|? ? [? ?]]; subst. apply errs_bind; [now apply errs_rd|]. intros.
      apply errs_bind; auto. intros. apply errs_bind; [apply IHIH'; auto|]. intros; exact I.
    + intros. destruct tl; cbn; auto.
  - cbn. destruct C; auto.
Qed.
Lemma errs_value fp d r : clean J r -> errs K (to_value fp d r).
Proof. intros. unfold to_value. apply errs_bind; [now apply errs_content|]. intros; exact I. Qed.
Lemma errs_skip r : clean J r -> errs K (skip r).
Proof.
  induction r as [ | | | e s | l tl IH | l tl IH | ] using raw_ind'; intros C; try exact I.
  - apply clean_arr in C as [C1 C2]. cbn. apply errs_bind; [|intros; destruct tl; cbn; auto].
    induction IH as [|x l Hx IH']; cbn; auto. inversion C1; subst. apply errs_bind; auto.
  - apply clean_obj in C as [C1 C2]. cbn. apply errs_bind; [|intros; destruct tl; cbn; auto].
    induction IH as [|[k x] l Hx IH']; cbn; auto. inversion C1 as [|? ? [? ?]]; subst. apply errs_bind; auto.
  - cbn. destruct C; auto.
Qed.

Ltac er := repeat (intros; cbv beta iota; lazymatch goal with
  | |- errs K (Ok _) => exact I
  | |- errs K (Err Malformed) => exact KM
  | |- errs K (rbind (elem _ _ _) _) => apply errs_elem; auto
  | |- errs K (rbind _ _) => apply errs_bind
  | |- errs K (need _) => apply errs_need
  | |- errs K (skip _) => apply errs_skip; auto
  | |- errs K (once _ _ _) => apply errs_once; auto
  | |- errs K (de_string _) => apply errs_string; auto
  | |- errs K (de_borrowed _) => apply errs_borrowed; auto
  | |- errs K (de_option _ _) => apply errs_option; auto
  | |- errs K (de_ostr _) => unfold de_ostr
  | |- errs K (de_ou64 _ _) => unfold de_ou64
  | |- errs K (de_u64 _ _) => apply errs_u64; auto
  | |- errs K (de_bool _) => apply errs_bool; auto
  | |- errs K (de_vec _ _) => apply errs_vec; auto
  | |- errs K (to_value _ _ _) => apply errs_value; auto
  | |- errs K (to_content _ _ _) => apply errs_content; auto
  | |- errs K (end_seq _ _) => apply errs_end; auto
  | |- errs K (mismatch _) => apply errs_mismatch; auto
  | |- errs K (walk _ _ _ _) => apply errs_walk; auto
  | |- errs K (match ?x with _ => _ end) => destruct x
  | |- errs K ((match ?x with _ => _ end) _ _) => destruct x
  | |- errs K _ => progress auto
  end).
Ltac dec := let r := fresh "r" in intros r; let C := fresh "C" in intros C; destruct r; try (now apply errs_mismatch);
  [apply clean_arr in C as [? ?]|apply clean_obj in C as [? ?]]; cbv beta iota.

Lemma errs_kid_header : forall r, clean J r -> errs K (de_kid_header r).
Proof. unfold de_kid_header. dec; er. Qed.
Lemma errs_jws_sig : forall r, clean J r -> errs K (de_jws_sig r).
Proof. pose proof errs_kid_header. unfold de_jws_sig. dec; er. Qed.
Lemma errs_jws : forall r, clean J r -> errs K (de_jws r).
Proof. pose proof errs_jws_sig. unfold de_jws. dec; er. Qed.
Lemma errs_jws_alg : forall r, clean J r -> errs K (de_jws_alg r).
Proof. unfold de_jws_alg. er. Qed.
Lemma errs_jws_header : forall r, clean J r -> errs K (de_jws_header r).
Proof. pose proof errs_jws_alg. unfold de_jws_header. dec; er. Qed.
Lemma errs_compact_header : forall r, clean J r -> errs K (de_compact_header r).
Proof. pose proof errs_jws_alg. unfold de_compact_header. dec; er. Qed.
Lemma errs_recipient : forall r, clean J r -> errs K (de_recipient r).
Proof. pose proof errs_kid_header. unfold de_recipient. dec; er. Qed.
Lemma errs_jwe : forall r, clean J r -> errs K (de_jwe r).
Proof. pose proof errs_recipient. unfold de_jwe. dec; er. Qed.
Lemma errs_jwe_header C : forall r, clean J r -> errs K (de_jwe_header C r).
Proof.
  assert (forall r, clean J r -> errs K (de_jwe_alg r)) by (unfold de_jwe_alg; er).
  assert (forall r, clean J r -> errs K (de_jwe_enc r)) by (unfold de_jwe_enc; er).
  assert (forall r, clean J r -> errs K (de_epk C r)) by (unfold de_epk; er).
  unfold de_jwe_header. dec; er.
Qed.
Lemma errs_adata fp : forall r, clean J r -> errs K (de_adata fp r).
Proof. unfold de_adata, de_adata_content. er. Qed.
Lemma errs_attachment fp : forall r, clean J r -> errs K (de_attachment fp r).
Proof. pose proof (errs_adata fp). unfold de_attachment. dec; er. unfold att_step. er. Qed.
Lemma errs_message fp : forall r, clean J r -> errs K (de_message fp r).
Proof.
  pose proof (errs_attachment fp). intros r C. unfold de_message. destruct r; try now apply errs_mismatch.
  apply clean_obj in C as [? ?]. er. { unfold msg_step. er. } unfold msg_finish. er.
Qed.
Lemma errs_from_prior C : forall r, clean J r -> errs K (de_from_prior C r).
Proof. unfold de_from_prior. dec; er. unfold fp_step. er. Qed.
End Errs.

(** Whole texts: Malformed or (end of input) InvalidState. *)
Definition json_kind (k : errkind) : Prop := k = Malformed \/ k = InvalidState.
Lemma from_json_errs {A} (dec : raw -> res A) s :
  (forall r, clean (fun _ => True) r -> errs json_kind (dec r)) -> errs json_kind (from_json dec s).
Proof.
  intros H. unfold from_json. destruct (parse s) as [r e]. specialize (H r (clean_any r)).
  destruct (dec r); cbn in *; auto. destruct e as [[]|]; cbn; auto; [now right|now left].
Qed.
Lemma jkind_ok e : True -> json_kind (jkind e). Proof. destruct e; [now right|now left]. Qed.
Lemma jm : json_kind Malformed. Proof. now left. Qed.
Lemma jwe_str_errs s : errs json_kind (jwe_from_str s).
Proof. apply from_json_errs, errs_jwe; [exact jm|exact jkind_ok]. Qed.
Lemma jws_str_errs s : errs json_kind (jws_from_str s).
Proof. apply from_json_errs, errs_jws; [exact jm|exact jkind_ok]. Qed.
Lemma msg_str_errs fp s : errs json_kind (message_from_str fp s).
Proof. apply from_json_errs, errs_message; [exact jm|exact jkind_ok]. Qed.
Lemma jwe_header_errs C s : errs json_kind (from_json (de_jwe_header C) s).
Proof. apply from_json_errs, errs_jwe_header; [exact jm|exact jkind_ok]. Qed.
Lemma jws_header_errs s : errs json_kind (from_json de_jws_header s).
Proof. apply from_json_errs, errs_jws_header; [exact jm|exact jkind_ok]. Qed.
Lemma compact_header_errs s : errs json_kind (from_json de_compact_header s).
Proof. apply from_json_errs, errs_compact_header; [exact jm|exact jkind_ok]. Qed.
Lemma from_prior_errs C s : errs json_kind (from_json (de_from_prior C) s).
Proof. apply from_json_errs, errs_from_prior; [exact jm|exact jkind_ok]. Qed.

(** A printed tree fails with Malformed only. *)
Lemma print_errs {A} (dec : raw -> res A) v : printable v ->
  (forall r, clean (fun _ => False) r -> errs (fun k => k = Malformed) (dec r)) ->
  errs (fun k => k = Malformed) (from_json dec (print v)).
Proof. intros P H. rewrite from_json_print by auto. apply H. now apply clean_raw_of. Qed.
