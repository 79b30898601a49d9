(** Proofs about JSON kept as JavaScript objects (C85). *)
From Coq Require Import Lia Permutation.
From Verif.Model Require Import Prelude Utf8 Base64 Json Serde DidDoc Crypto Keys Effects Jws Jwe Message FromPrior Pack Routing Unpack Bindings DocJson.
From Verif.Spec Require Import Codec Small Events World Text Sane Wire Doc JsObj.
From Verif.Proofs Require Import Lib SealP JsonP JsonDec SerdeP CodecP SaneP RoundP WireP ReadP ReadM DocP DocE.

Section Image.
Context (jn : number -> number).
Notation image := (js_image jn).
Definition kept (v : value) : Prop := forall n, has_number v n -> jn n = n.

(** No object repeats a name. *)
Inductive tidy : value -> Prop :=
| td_null : tidy VNull | td_bool b : tidy (VBool b) | td_num n : tidy (VNum n) | td_str s : tidy (VStr s)
| td_arr l : (forall x, In x l -> tidy x) -> tidy (VArr l)
| td_obj l : NoDup (map fst l) -> (forall k x, In (k, x) l -> tidy x) -> tidy (VObj l).
Definition nice (v : value) : Prop := kept v /\ tidy v.

Lemma kept_arr l x : kept (VArr l) -> In x l -> kept x.
Proof. intros K I n H. apply K. econstructor; eauto. Qed.
Lemma kept_obj l k x : kept (VObj l) -> In (k, x) l -> kept x.
Proof. intros K I n H. apply K. econstructor; eauto. Qed.
Lemma last_In l k v : last_of l k v -> In (k, v) l.
Proof. intros (l1 & l2 & -> & _). apply in_app_iff. right. now left. Qed.
Lemma one_last l k v : one l k v -> last_of l k v.
Proof. intros (l1 & l2 & -> & _ & N). now exists l1, l2. Qed.
Lemma nodup_one (l : members) k v : NoDup (map fst l) -> In (k, v) l -> one l k v.
Proof.
  intros N I. apply in_split in I as (l1 & l2 & ->). exists l1, l2. split; auto. rewrite map_app in N. cbn in N.
  apply NoDup_remove_2 in N. rewrite in_app_iff in N. unfold none. tauto.
Qed.
Lemma last_ex (l : members) k : In k (map fst l) -> exists v, last_of l k v.
Proof.
  induction l as [|[k' v'] l IH]; cbn; [tauto|]. intros H. destruct (in_dec (list_eq_dec Ascii.ascii_dec) k (map fst l)) as [I|I].
  - destruct (IH I) as (v & l1 & l2 & -> & N). exists v, ((k', v') :: l1), l2. now split.
  - destruct H as [<-|H]; [|tauto]. exists v', [], l. now split.
Qed.
Lemma last_unique (l : members) k v w : last_of l k v -> last_of l k w -> v = w.
Proof.
  intros (a & b & -> & N) (c & d & E & N'). revert c E. induction a as [|x a IH]; intros [|y c] E; cbn in E.
  - now injection E.
  - injection E as E1 E2. subst b y. exfalso. apply N. rewrite map_app. apply in_app_iff. right. now left.
  - injection E as E1 E2. subst d x. exfalso. apply N'. rewrite map_app. apply in_app_iff. right. now left.
  - injection E as E1 E2. eauto.
Qed.

(** The member of the image. *)
Lemma image_member l m k v : image (VObj l) (VObj m) -> last_of l k v -> exists w, one m k w /\ image v w.
Proof.
  intros H L. inversion H as [| | | | |l' m' ND K I]; subst. assert (X : In k (map fst m)) by (apply K; apply in_map_iff; exists (k, v); split; auto using last_In).
  apply in_map_iff in X as ((k', w) & E & X). cbn in E. subst k'. exists w. split; [now apply nodup_one|eauto].
Qed.
Lemma image_none l m k : image (VObj l) (VObj m) -> none l k <-> none m k.
Proof. intros H. inversion H as [| | | | |l' m' ND K I]; subst. unfold none. rewrite K. tauto. Qed.
Lemma image_null v w : image v w -> v = VNull <-> w = VNull.
Proof. intros H. inversion H; split; intros; try discriminate; reflexivity. Qed.

Lemma image_value v : forall w b, kept v -> image v w -> value_read v b -> value_read w b.
Proof.
  induction v as [| b0 | n | s | l IH | l IH] using value_ind'; intros w b K I R; inversion I; subst; inversion R; subst; try rewrite Forall_forall in IH.
  - constructor.
  - constructor.
  - rewrite (K n) by constructor. constructor.
  - constructor.
  - constructor; [congruence|]. intros i y z Y Z. destruct (nth_error l i) as [x|] eqn:X.
    + eapply IH; eauto using nth_error_In. eapply kept_arr; eauto using nth_error_In.
    + apply nth_error_None in X. assert (nth_error m i <> None) by congruence. apply nth_error_Some in H. lia.
  - constructor; auto.
    + intros k b X. destruct (H4 k b X) as (v & L & R'). destruct (image_member l m k v I L) as (w & O & J). exists w. split; [now apply one_last|].
      eapply (IH (k, v)); eauto using last_In, kept_obj.
    + intros k X. apply H5. now apply H1.
Qed.

Lemma nice_arr l x : nice (VArr l) -> In x l -> nice x.
Proof. intros [K T] I. split; [eapply kept_arr; eauto|]. inversion T; auto. Qed.
Lemma nice_obj l k x : nice (VObj l) -> In (k, x) l -> nice x.
Proof. intros [K T] I. split; [eapply kept_obj; eauto|]. inversion T; eauto. Qed.

(** Nothing changes but the order. *)
Lemma image_refl v : nice v -> image v v.
Proof.
  induction v as [| b0 | n | s | l IH | l IH] using value_ind'; intros N; try rewrite Forall_forall in IH.
  - constructor.
  - constructor.
  - destruct N as [K _]. rewrite <- (K n) at 2 by constructor. constructor.
  - constructor.
  - constructor; auto. intros i x y X Y. rewrite X in Y. injection Y as <-. apply nth_error_In in X. eauto using nice_arr.
  - pose proof N as [K T]. inversion T; subst. constructor; auto; [tauto|]. intros k v w L I. replace w with v.
    + apply (IH (k, v)); [now apply last_In|]. eapply nice_obj; [exact N|apply last_In; exact L].
    + apply (last_unique l k v w L), one_last, nodup_one; auto.
Qed.
Lemma image_shuffle l m : nice (VObj l) -> Permutation l m -> image (VObj l) (VObj m).
Proof.
  intros N P. pose proof N as [K T]. inversion T; subst. constructor.
  - eapply Permutation_NoDup; [apply Permutation_map; eassumption|auto].
  - intros k. split; apply Permutation_in; [|symmetry]; now apply Permutation_map.
  - intros k v w L I. apply (Permutation_in _ (Permutation_sym P)) in I. replace w with v.
    + apply image_refl. eapply nice_obj; [exact N|apply last_In; exact L].
    + apply (last_unique l k v w L), one_last, nodup_one; auto.
Qed.

Lemma image_members l m : NoDup (map fst l) -> Forall2 (fun e f => fst e = fst f /\ image (snd e) (snd f)) l m -> image (VObj l) (VObj m).
Proof.
  intros N F. assert (E : map fst l = map fst m) by (clear N; induction F as [|e f l m [E _] F IH]; cbn; congruence). constructor.
  - now rewrite <- E.
  - intros k. now rewrite E.
  - intros k v w L I. assert (X : exists v', In (k, v') l /\ image v' w).
    { clear L N E. induction F as [|[a b] [c d] l m [E J] F IH]; [destruct I|]. cbn in E, J. destruct I as [I|I].
      - injection I as -> ->. exists b. subst a. split; [now left|auto].
      - destruct (IH I) as (v' & X & Y). exists v'. split; [now right|auto]. }
    destruct X as (v' & X & J). replace v with v'; auto. apply (last_unique l k v' v); auto. apply one_last, nodup_one; auto.
Qed.

(** Readers that do not notice. *)
Definition unnoticed {A} (rd : value -> A -> Prop) : Prop := forall v w a, nice v -> image v w -> rd v a -> rd w a.
Lemma un_str : unnoticed str_read.
Proof. intros v w a K I ->. now inversion I. Qed.
Lemma un_num : unnoticed num_read.
Proof. intros v w a [K _] I ->. inversion I; subst. unfold num_read. rewrite K by constructor. reflexivity. Qed.
Lemma un_value : unnoticed value_read.
Proof. intros v w a [K _]. now apply image_value. Qed.
Lemma un_list {A} (rd : value -> A -> Prop) : unnoticed rd -> unnoticed (list_read rd).
Proof.
  intros U v w l K I (vs & -> & F). inversion I as [| | | |l0 m L X|]; subst. exists m. split; auto. clear I.
  assert (K' : forall x, In x vs -> nice x) by (intros; eapply nice_arr; eauto). clear K.
  revert m L X. induction F as [|x a vs l R F IH]; intros [|y m] L X; try discriminate; constructor.
  - eapply U; [apply K'; now left| |exact R]. apply (X 0); reflexivity.
  - apply IH; [intros z Z; apply K'; now right|now injection L|intros i; exact (X (S i))].
Qed.
Lemma un_present n v w i k x : nice v -> image v w -> present n v i k x -> exists y, present n w i k y /\ image x y /\ nice x.
Proof.
  intros N I [(l & -> & O)|(vs & -> & L & E)].
  - apply one_last in O. inversion I as [| | | | |l0 m ND KK X]; subst.
    destruct (image_member l m _ _ I O) as (y & O' & J). exists y. split; [left; eauto|]. split; eauto using last_In, nice_obj.
  - inversion I as [| | | |l0 m LE X|]; subst. destruct (nth_error m i) as [y|] eqn:Y.
    + exists y. split; [right; exists m; auto|]. split; eauto using nth_error_In, nice_arr.
    + apply nth_error_None in Y. assert (Z : nth_error vs i <> None) by congruence. apply nth_error_Some in Z. lia.
Qed.
Lemma un_missing v w k : image v w -> missing v k -> missing w k.
Proof. intros I (l & -> & N). inversion I as [| | | | |l0 m ND KK X]; subst. exists m. split; auto. now apply (image_none l m). Qed.
Lemma un_req {A} (rd : value -> A -> Prop) n i k : unnoticed rd -> unnoticed (fun v => req rd n v i k).
Proof.
  intros U v w a K I (x & P & R). destruct (un_present _ _ _ _ _ _ K I P) as (y & P' & J & M). exists y. split; auto.
  eapply U; eauto.
Qed.
Lemma un_maybe {A} (rd : value -> A -> Prop) n i k : unnoticed rd -> unnoticed (fun v => maybe rd n v i k).
Proof.
  intros U v w [a|] K I; cbn [maybe].
  - intros (x & P & N & R). destruct (un_present _ _ _ _ _ _ K I P) as (y & P' & J & M). exists y. split; auto. split.
    + intros ->. apply N. now apply (image_null x VNull J).
    + eapply U; eauto.
  - intros [M|P]; [left; eapply un_missing; eauto|right]. destruct (un_present _ _ _ _ _ _ K I P) as (y & P' & J & M). inversion J; subst. auto.
Qed.

(** Back. *)
Lemma back_present v w k y : tidy v -> image v w -> (exists m, w = VObj m) -> present 0 w 0 k y -> exists x, present 0 v 0 k x /\ image x y.
Proof.
  intros T I (m & ->) [(l & E & O)|(vs & E & _)]; [|discriminate]. injection E as <-. inversion I as [| | | | |l m0 ND KK X]; subst.
  pose proof (one_last _ _ _ O) as LO. apply last_In in LO. destruct (last_ex l (B k)) as (x & L).
  { apply KK. apply in_map_iff. exists (B k, y). auto. }
  exists x. split; [|eauto]. left. exists l. split; auto. inversion T; subst. apply nodup_one; auto using last_In.
Qed.
Lemma back_missing v w k : image v w -> missing w k -> missing v k.
Proof. intros I (l & -> & N). inversion I as [| | | | |m l0 ND KK X]; subst. exists m. split; auto. now apply (image_none m l). Qed.
Definition back {A} (rd : value -> A -> Prop) : Prop := forall v w a, tidy v -> image v w -> rd w a -> exists b, rd v b.
Lemma back_str v w s : image v w -> str_read w s -> str_read v s.
Proof. intros I ->. now inversion I. Qed.
Lemma back_jws v w j : tidy v -> image v w -> (exists m, w = VObj m) -> Wire.with_jws w j -> Wire.with_jws v j.
Proof.
  intros T I O. unfold Wire.with_jws. destruct j as [j|]; cbn [maybe].
  - intros (y & P & N & R). destruct (back_present _ _ _ _ T I O P) as (x & P' & J). exists x. split; auto. apply (back_str x) in R; auto.
    split; auto. rewrite R. discriminate.
  - intros [M|P]; [left; eapply back_missing; eauto|right]. destruct (back_present _ _ _ _ T I O P) as (x & P' & J). inversion J; subst. auto.
Qed.
Lemma back_base64 v w d : tidy v -> image v w -> (exists m, w = VObj m) -> base64_read w d -> base64_read v d.
Proof.
  intros T I O (s & j & -> & (y & P & R) & W). exists s, j. split; auto. split; [|eapply back_jws; eauto].
  destruct (back_present _ _ _ _ T I O P) as (x & P' & J). exists x. split; auto. eapply back_str; eauto.
Qed.
Lemma back_json v w d : tidy v -> image v w -> (exists m, w = VObj m) -> json_read w d -> exists d', json_read v d'.
Proof.
  intros T I O (b & j & -> & (y & P & R) & W). destruct (back_present _ _ _ _ T I O P) as (x & P' & J).
  exists (AJson (norm x) j), (norm x), j. split; auto. split; [|eapply back_jws; eauto]. exists x. split; auto. now apply value_read_norm.
Qed.
Lemma un_content : unnoticed content_read.
Proof.
  intros v w d N I ((l & ->) & H). assert (O : exists m, w = VObj m) by (inversion I; eauto). split; auto.
  pose proof (un_maybe str_read 0 0 "jws" un_str (VObj l) w) as UJ.
  assert (B64 : base64_read (VObj l) d -> base64_read w d).
  { intros (s & j & -> & R & W). exists s, j. split; auto. split; [eapply (un_req str_read); eauto using un_str|eapply UJ; eauto]. }
  assert (JS : json_read (VObj l) d -> json_read w d).
  { intros (s & j & -> & R & W). exists s, j. split; auto. split; [eapply (un_req value_read); eauto using un_value|eapply UJ; eauto]. }
  assert (LK : links_read (VObj l) d -> links_read w d).
  { intros (s & h & j & -> & R & R' & W). exists s, h, j. split; auto. repeat split; [eapply (un_req (list_read str_read)); eauto using un_list, un_str|eapply (un_req str_read); eauto using un_str|eapply UJ; eauto]. }
  destruct N as [_ T]. destruct H as [H|[(H1 & H2)|(H1 & H2 & H3)]]; [auto|right; left|right; right].
  - split; auto. intros d' D. apply (H1 d'). eapply back_base64; eauto.
  - split; [|split; auto].
    + intros d' D. apply (H1 d'). eapply back_base64; eauto.
    + intros d' D. destruct (back_json _ _ _ T I O D) as (d'' & D'). eapply H2; eauto.
Qed.
Ltac un := first [apply un_str|apply un_num|apply un_value|apply un_content].
Lemma un_attachment : unnoticed attachment_read.
Proof.
  intros v w a N I H. unfold attachment_read in *.
  repeat match goal with H : _ /\ _ |- _ => destruct H as [? H] end. repeat apply conj;
  first [eapply un_req; [|exact N|exact I|eassumption]; un|eapply un_maybe; [|exact N|exact I|eassumption]; un].
Qed.
Lemma un_prior : unnoticed prior_read.
Proof.
  intros v w a N I H. unfold prior_read in *.
  repeat match goal with H : _ /\ _ |- _ => destruct H as [? H] end. repeat apply conj;
  first [eapply un_req; [|exact N|exact I|eassumption]; un|eapply un_maybe; [|exact N|exact I|eassumption]; un].
Qed.
Lemma un_message : unnoticed message_read.
Proof.
  intros v w m N I (l & -> & H). assert (O : exists l', w = VObj l') by (inversion I; eauto). destruct O as (l' & ->). exists l'. split; auto.
  destruct H as (H1 & H2 & H3 & H4 & H5 & H6 & H7 & H8 & H10 & H11 & H12 & H13 & X).
  repeat apply conj; try first [eapply un_req; [|exact N|exact I|eassumption]; un|eapply un_maybe; [|exact N|exact I|eassumption]; first [un|apply un_list, un_str|apply un_list, un_attachment]].
  - destruct H2 as [H2|[H2 E]]; [left; eapply un_req; [|exact N|exact I|eassumption]; un|right; split; auto; eapply un_missing; eauto].
  - intros k. specialize (X k). destruct (amap_get k (msg_extra m)) as [b|].
    + destruct X as (S & v & L & R). split; auto. destruct (image_member l l' k v I L) as (w & OW & J). exists w. split; [now apply one_last|].
      eapply image_value; eauto. destruct N as [K _]. eapply kept_obj; eauto using last_In.
    + destruct X as [X|X]; [auto|right]. now apply (image_none l l' k I).
Qed.

(** The image is JSON. *)
Lemma image_tree fp v : forall d w, kept v -> image v w -> json_tree fp d v -> json_tree fp d w.
Proof.
  induction v as [| b0 | n | s | l IH | l IH] using value_ind'; intros d w K I T; inversion I; subst; inversion T; subst; try rewrite Forall_forall in IH; try now constructor.
  - rewrite K by constructor. now constructor.
  - constructor. intros y Y. apply In_nth_error in Y as (i & Y). destruct (nth_error l i) as [x|] eqn:X.
    + pose proof (nth_error_In _ _ X). eapply IH; eauto. eapply kept_arr; eauto.
    + apply nth_error_None in X. assert (Z : nth_error m i <> None) by congruence. apply nth_error_Some in Z. lia.
  - constructor. intros k y Y. destruct (last_ex l k) as (x & L).
    { apply H1. apply in_map_iff. exists (k, y). auto. }
    pose proof (last_In _ _ _ L) as LI. match goal with H : forall k x, In (k, x) l -> _ /\ _ |- _ => destruct (H _ _ LI) as [U TX] end. split; auto.
    eapply (IH (k, x)); eauto. cbn. eapply kept_obj; eauto.
Qed.

(** ** What is written *)
Section Written.
Context (C : crypto).
Notation fp := (fparse C).
Notation P := (fun n => jn n = n).
Definition good (d : nat) (v : value) : Prop := json_tree fp d v /\ nice v.
Lemma good_str d s : text_ok s -> good d (VStr s).
Proof. intros U. split; [now constructor|]. split; [intros n H; inversion H|constructor]. Qed.
Lemma good_nat d n : time_ok n -> number_time P n -> good d (VNat n).
Proof. intros T N. split; [now constructor|]. split; [intros k H; inversion H; subst; exact N|constructor]. Qed.
Lemma good_arr d l : (forall x, In x l -> good d x) -> good (S d) (VArr l).
Proof.
  intros H. split; [constructor; intros x I; now apply H|]. split; [|constructor; intros x I; now apply H].
  intros n N. inversion N; subst. edestruct H as [_ [K _]]; eauto.
Qed.
Lemma good_strs d l : Forall text_ok l -> good (S d) (VStrs l).
Proof. intros F. apply good_arr. intros x I. apply in_map_iff in I as (s & <- & I). rewrite Forall_forall in F. apply good_str. auto. Qed.
Lemma good_obj d l : NoDup (map fst l) -> Forall (fun e => utf8 (fst e) = true /\ good d (snd e)) l -> good (S d) (VObj l).
Proof.
  intros N F. rewrite Forall_forall in F. split; [constructor; intros k x I; apply F in I as [U [T _]]; auto|].
  split; [|constructor; auto; intros k x I; apply F in I as [_ [_ [_ T]]]; auto].
  intros n H. inversion H; subst. match goal with H : In _ l |- _ => apply F in H as [_ [_ [K _]]] end. auto.
Qed.
Lemma sorted_nodup l : sorted_names l -> NoDup l.
Proof.
  intros H. assert (G : forall k l, sorted_names (k :: l) -> forall x, In x l -> bcmp k x = Lt).
  { clear. intros k l. revert k. induction l as [|y l IH]; intros k H x I; [destruct I|]. inversion H; subst. destruct I as [<-|I]; auto.
    eapply bcmp_trans; eauto. }
  induction H as [|k|k k' l L H IH]; [constructor|constructor; [tauto|constructor]|]. constructor; auto. intros I.
  assert (E : bcmp k k = Lt) by (destruct I as [<-|I]; [auto|eapply bcmp_trans; [eassumption|eapply G; eassumption]]).
  rewrite bcmp_refl in E. discriminate.
Qed.
Lemma good_value d v : forall e, d <= e -> json_value fp d v -> numbers_within P v -> good e v.
Proof.
  revert d. induction v as [| b0 | n | s | l IH | l IH] using value_ind'; intros d e L J N; inversion J; subst; try rewrite Forall_forall in IH.
  - split; [constructor|]. split; [intros n H; inversion H|constructor].
  - split; [constructor|]. split; [intros n H; inversion H|constructor].
  - split; [now constructor|]. split; [exact N|constructor].
  - split; [now constructor|]. split; [intros n H; inversion H|constructor].
  - destruct e as [|e]; [lia|]. apply good_arr. intros x I. eapply IH; [assumption| |match goal with H : forall x, In x l -> json_value _ _ _ |- _ => apply H; assumption end|]; [lia|]. intros n H. apply N. econstructor; eauto.
  - destruct e as [|e]; [lia|]. apply good_obj; [now apply sorted_nodup|]. apply Forall_forall. intros [k x] I. cbn. match goal with H : forall k x, In (k, x) l -> _ /\ _ |- _ => destruct (H _ _ I) as [U JX] end. split; auto.
    eapply (IH (k, x)); [assumption| |eassumption|]; [lia|]. intros n H. apply N. econstructor; eauto.
Qed.
Lemma nodup_app {A} (a b : list A) : NoDup a -> NoDup b -> (forall x, In x a -> ~ In x b) -> NoDup (a ++ b).
Proof.
  intros N M D. induction N as [|x a X N IH]; cbn; auto. constructor; [|apply IH; intros y Y; apply D; now right].
  rewrite in_app_iff. intros [I|I]; [auto|]. apply (D x); [now left|auto].
Qed.
Lemma opt_member_names {A} k (f : A -> value) o x : In x (map fst (opt_member k f o)) -> x = B k.
Proof. destruct o; cbn; [intros [<-|[]]; reflexivity|tauto]. Qed.
Lemma opt_member_nodup {A} k (f : A -> value) o l : ~ In (B k) (map fst l) -> NoDup (map fst l) -> NoDup (map fst (opt_member k f o ++ l)).
Proof. intros N D. destruct o; cbn; [constructor|]; auto. Qed.
Lemma opt_member_all {A} k (f : A -> value) o l (Q : bytes * value -> Prop) : opt (fun a => Q (B k, f a)) o -> Forall Q l -> Forall Q (opt_member k f o ++ l).
Proof. intros H F. destruct o; cbn; [constructor|]; auto. Qed.
Lemma opt_imp {A} (Q R : A -> Prop) o : (forall a, Q a -> R a) -> opt Q o -> opt R o.
Proof. intros H O a E. auto. Qed.
Lemma opt_and {A} (Q R : A -> Prop) o : opt Q o -> opt R o -> opt (fun a => Q a /\ R a) o.
Proof. intros H H' a E. split; auto. Qed.

Ltac absent1 := let H := fresh in intros H; repeat (rewrite map_app in H; apply in_app_iff in H as [H|H]; [apply opt_member_names in H; discriminate H|]);
  first [destruct H|apply opt_member_names in H; discriminate H|idtac].
Ltac member := apply opt_member_all; [eapply opt_imp; [|first [eassumption|eapply opt_and; eassumption]]; cbn [fst snd]; intros ? ?; split; [reflexivity|]|].
Lemma good_adata a d : attachment_fits C a -> numbers_attachment P a -> 123 <= d -> good (S d) (adata_tree (att_data a)).
Proof.
  intros [F _] [N _] L. unfold adata_tree. destruct (att_data a) as [s j|v j|l h j].
  - destruct F as [F1 F2]. rewrite <- (app_nil_r (opt_member _ _ _)). apply good_obj.
    + cbn [map fst]. constructor; [absent1|]. apply opt_member_nodup; cbn; auto using NoDup_nil.
    + constructor; [cbn [fst snd]; split; [reflexivity|now apply good_str]|]. member; [now apply good_str|constructor].
  - destruct F as [F1 F2]. rewrite <- (app_nil_r (opt_member _ _ _)). apply good_obj.
    + cbn [map fst]. constructor; [absent1|]. apply opt_member_nodup; cbn; auto using NoDup_nil.
    + constructor; [cbn [fst snd]; split; [reflexivity|eapply good_value; eauto]|]. member; [now apply good_str|constructor].
  - destruct F as (F1 & F2 & F3). rewrite <- (app_nil_r (opt_member _ _ _)). destruct d as [|d]; [lia|]. apply good_obj.
    + cbn [map fst]. constructor; [|constructor; [absent1|apply opt_member_nodup; cbn; auto using NoDup_nil]].
      intros [H|H]; [discriminate H|revert H; absent1].
    + constructor; [cbn [fst snd]; split; [reflexivity|now apply good_strs]|]. constructor; [cbn [fst snd]; split; [reflexivity|now apply good_str]|].
      member; [now apply good_str|constructor].
Qed.
Lemma good_attachment a d : attachment_fits C a -> numbers_attachment P a -> 123 <= d -> good (S (S d)) (attachment_tree a).
Proof.
  intros F N L. pose proof (good_adata a d F N L) as G. destruct F as (_ & F1 & F2 & F3 & F4 & F5 & F6 & F7), N as (_ & N1 & N2).
  unfold attachment_tree. rewrite <- (app_nil_r (opt_member "byte_count" _ _)). apply good_obj.
  - cbn [map fst]. constructor; [rewrite <- ?app_assoc; absent1|]. rewrite <- ?app_assoc. repeat (apply opt_member_nodup; [absent1|]). constructor.
  - rewrite <- ?app_assoc. constructor; [cbn [fst snd]; split; [reflexivity|exact G]|].
    member; [now apply good_str|]. member; [now apply good_str|]. member; [now apply good_str|]. member; [now apply good_str|]. member; [now apply good_str|].
    apply opt_member_all; [intros n E; split; [reflexivity|apply good_nat; auto]|].
    apply opt_member_all; [intros n E; split; [reflexivity|apply good_nat; auto]|]. constructor.
Qed.
Lemma good_message m : message_sane C m -> numbers_message P m -> good 127 (message_tree m).
Proof.
  intros (F1 & F2 & F3 & F4 & F5 & F6 & F7 & F8 & F9 & F10 & F11 & F12 & F13 & F14) (N1 & N2 & N3 & N4 & N5).
  unfold message_tree, message_members. rewrite <- (app_nil_r (opt_member "attachments" _ _)).
  assert (X : forall k, In k World.standard_headers -> ~ In k (map fst (msg_extra m))).
  { intros k K I. apply in_map_iff in I as ((k', v) & <- & I). apply F14 in I as (_ & I & _). contradiction. }
  apply good_obj.
  - rewrite <- ?app_assoc. cbn [app map fst].
    assert (Z : forall k, In k World.standard_headers -> k <> B "created_time" -> k <> B "expires_time" -> k <> B "from_prior" -> k <> B "attachments" ->
      ~ In k (map fst (msg_extra m ++ opt_member "created_time" VNat (msg_created m) ++ opt_member "expires_time" VNat (msg_expires m)
        ++ opt_member "from_prior" VStr (msg_from_prior m) ++ opt_member "attachments" (fun l => VArr (map attachment_tree l)) (msg_attachments m) ++ []))).
    { intros k K A1 A2 A3 A4 H. rewrite map_app in H. apply in_app_iff in H as [H|H]; [exact (X k K H)|].
      repeat (rewrite map_app in H; apply in_app_iff in H as [H|H]; [apply opt_member_names in H; contradiction|]). destruct H. }
    Ltac z Z := absent1; revert_last Z
    with revert_last Z := lazymatch goal with H : In ?k _ |- False => apply (Z k) in H; [exact H|cbn; tauto|discriminate..] end.
    repeat (constructor; [intros H; repeat (destruct H as [H|H]; [discriminate H|]); revert H; z Z|]).
    repeat (apply opt_member_nodup; [z Z|]).
    rewrite map_app. apply nodup_app; [exact F13| |].
    + repeat (apply opt_member_nodup; [absent1|]). constructor.
    + intros k I H. apply (X k); auto.
      repeat (rewrite map_app in H; apply in_app_iff in H as [H|H]; [apply opt_member_names in H; subst k; cbn; tauto|]). destruct H.
  - rewrite <- ?app_assoc. cbn [app].
    do 3 (constructor; [cbn [fst snd]; split; [reflexivity|now apply good_str]|]).
    constructor; [cbn [fst snd]; split; [reflexivity|eapply good_value; eauto]|].
    member; [now apply good_str|]. member; [now apply good_strs|]. member; [now apply good_str|]. member; [now apply good_str|].
    apply Forall_app. split.
    { apply Forall_forall. intros [k v] I. cbn [fst snd]. destruct (F14 _ _ I) as (U & _ & J). split; [exact U|eapply good_value; eauto]. }
    apply opt_member_all; [intros n E; split; [reflexivity|apply good_nat; auto]|].
    apply opt_member_all; [intros n E; split; [reflexivity|apply good_nat; auto]|].
    member; [now apply good_str|].
    apply opt_member_all; [|constructor]. intros l E. split; [reflexivity|]. cbn [snd]. apply (good_arr 125). intros x I. apply in_map_iff in I as (a & <- & I).
    specialize (F12 l E). specialize (N5 l E). rewrite Forall_forall in F12, N5. apply (good_attachment a 123); auto.
Qed.
Lemma good_prior p : prior_fits p -> numbers_prior P p -> good 127 (from_prior_tree p).
Proof.
  intros (F1 & F2 & F3 & F4 & F5 & F6 & F7) (N1 & N2 & N3). unfold from_prior_tree. rewrite <- (app_nil_r (opt_member "jti" _ _)). apply good_obj.
  - rewrite <- ?app_assoc. cbn [app map fst]. repeat (constructor; [intros H; repeat (destruct H as [H|H]; [discriminate H|]); revert H; absent1|]).
    repeat (apply opt_member_nodup; [absent1|]). constructor.
  - rewrite <- ?app_assoc. cbn [app]. do 2 (constructor; [cbn [fst snd]; split; [reflexivity|now apply good_str]|]).
    member; [now apply good_str|].
    do 3 (apply opt_member_all; [intros n E; split; [reflexivity|apply good_nat; auto]|]).
    member; [now apply good_str|constructor].
Qed.

Lemma message_kept m : message_sane C m -> numbers_message P m ->
  exists v, js_message_value m = print v /\ json_tree fp 127 v
    /\ forall w, image v w -> exists m', js_message_new fp (print w) = Ok m' /\ same_message m m'.
Proof.
  intros S N. destruct (good_message m S N) as [T G]. exists (message_tree m). split; [reflexivity|]. split; [exact T|].
  assert (R : message_read (message_tree m) m).
  { apply (message_sound fp); auto. apply de_message_raw, sane_ok, S. }
  intros w I. pose proof (image_tree fp _ _ _ (proj1 G) I T) as T'. apply (un_message _ w m G I) in R.
  destruct (message_complete fp w m T' R) as (m' & E & SM). exists m'. split; auto. unfold js_message_new, message_from_str.
  rewrite from_json_print by (eapply wfv_printable, wf_of; eauto). now rewrite E.
Qed.
Lemma prior_kept p : prior_fits p -> numbers_prior P p ->
  exists v, js_from_prior_value p = print v /\ json_tree fp 127 v
    /\ forall w, image v w -> js_from_prior_new C (print w) = Ok p.
Proof.
  intros S N. destruct (good_prior p S N) as [T G]. exists (from_prior_tree p). split; [reflexivity|]. split; [exact T|].
  intros w I. pose proof (image_tree fp _ _ _ (proj1 G) I T) as T'. pose proof (un_prior _ w p G I (prior_shown p)) as R.
  unfold js_from_prior_new. rewrite from_json_print by (eapply wfv_printable, wf_of; eauto).
  apply (reads_prior fp C 126 eq_refl w T') in R. now rewrite R.
Qed.
End Written.
End Image.

Section Numbers.
Context (P Q : number -> Prop) (PQ : forall n, P n -> Q n).
Lemma numbers_message_imp m : numbers_message P m -> numbers_message Q m.
Proof.
  unfold numbers_message, numbers_attachment, numbers_within, number_time. intros (H1 & H2 & H3 & H4 & H5). repeat split; eauto; try (intros a E; auto).
  specialize (H5 a E). eapply Forall_impl; [|exact H5]. cbn. intros x (X1 & X2 & X3). repeat split; try (intros n N; auto). destruct (att_data x); auto.
Qed.
Lemma numbers_prior_imp p : numbers_prior P p -> numbers_prior Q p.
Proof. unfold numbers_prior, number_time. intros (H1 & H2 & H3). repeat split; intros a E; auto. Qed.
End Numbers.

(** To check examples. *)
Fixpoint all_numbers (v : value) : list number :=
  match v with
  | VNum n => [n]
  | VArr l => flat_map all_numbers l
  | VObj l => flat_map (fun e => all_numbers (snd e)) l
  | _ => []
  end.
Lemma all_numbers_in v n : has_number v n -> In n (all_numbers v).
Proof.
  induction 1 as [n|l x n I H IH|l k x n I H IH]; cbn [all_numbers]; [now left|apply in_flat_map; eauto|apply in_flat_map; exists (k, x); auto].
Qed.
Lemma within_all P v : Forall P (all_numbers v) -> numbers_within P v.
Proof. intros F n H. rewrite Forall_forall in F. apply F, all_numbers_in, H. Qed.
