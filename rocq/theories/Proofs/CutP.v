(** Reading texts that were cut off: the reader meets the end of input. *)
From Verif.Model Require Import Prelude Utf8 Base64 Json Serde DidDoc Crypto Keys Effects Jws Jwe Message FromPrior Pack Routing Unpack.
From Verif.Spec Require Import Codec Small Text Grammar.
From Verif.Proofs Require Import Lib JsonP JsonDec CodecP TextP GrammarP SerdeP Errs.

(** ** The tree of a text that was cut off *)
Definition eof : raw := RErr JEof JEof.
Definition late (rd : jerr + bytes) (e : jerr) : Prop := forall x, rd = inr x -> e = JEof.
(** [cut r r']: [r'] is the tree of a beginning of the text of [r], which ends inside. *)
Inductive cut : raw -> raw -> Prop :=
| cut_eof r : cut r eof
| cut_str esc rd e : late rd e -> cut (RStr esc rd) (RErr e JEof)
| cut_arr l l' e : cuts l l' e -> cut (RArr l None) (RArr l' (Some e))
| cut_obj l l' e : mcuts l l' e -> cut (RObj l None) (RObj l' (Some e))
with cuts : list raw -> list raw -> jerr -> Prop :=
| cs_end l : cuts l [] JEof
| cs_in x x' l e : cut x x' -> cuts (x :: l) [x'] e
| cs_num n i f n' i' f' l : cuts (RNum n i f :: l) [RNum n' i' f'] JEof
| cs_more x l l' e : cuts l l' e -> cuts (x :: l) (x :: l') e
with mcuts : list ((jerr + bytes) * raw) -> list ((jerr + bytes) * raw) -> jerr -> Prop :=
| mc_end l : mcuts l [] JEof
| mc_key rd v l e e' : late rd e -> mcuts ((rd, v) :: l) [(inl e, eof)] e'
| mc_in rd v v' l e : cut v v' -> mcuts ((rd, v) :: l) [(rd, v')] e
| mc_num rd n i f n' i' f' l : mcuts ((rd, RNum n i f) :: l) [(rd, RNum n' i' f')] JEof
| mc_more kv l l' e : mcuts l l' e -> mcuts (kv :: l) (kv :: l') e.

(** ** Decoders stop at the cut *)
Definition stops {A} (D : raw -> res A) : Prop :=
  (forall r r' a, D r = Ok a -> cut r r' -> D r' = Err InvalidState)
  /\ (forall n i f a n' i' f', D (RNum n i f) = Ok a -> exists b, D (RNum n' i' f') = Ok b).

Lemma stops_mismatch {A} r r' (a : A) : mismatch r = Ok a -> cut r r' -> False.
Proof. destruct r as [| | |? []| | |]; cbn; discriminate. Qed.
Lemma stops_string : stops de_string.
Proof.
  split; [|discriminate]. intros r r' a H X. destruct X as [r|esc rd e L| |]; [reflexivity| |discriminate|discriminate].
  cbn in *. destruct rd; [discriminate|]. now rewrite (L _ eq_refl).
Qed.
Lemma stops_borrowed : stops de_borrowed.
Proof.
  split; [|discriminate]. intros r r' a H X. destruct X as [r|esc rd e L| |]; [reflexivity| |discriminate|discriminate].
  destruct rd; [destruct esc; discriminate|]. cbn. now rewrite (L _ eq_refl).
Qed.
Lemma stops_bind {A B} (D : raw -> res A) (f : A -> res B) : (forall a, exists b, f a = Ok b) -> stops D -> stops (fun r => rbind (D r) f).
Proof.
  intros T [S1 S2]. split.
  - intros r r' b H X. apply rbind_Ok in H as (a & H & _). now rewrite (S1 _ _ _ H X).
  - intros n i f0 b n' i' f' H. apply rbind_Ok in H as (a & H & _). destruct (S2 _ _ _ _ n' i' f' H) as [a' ->]. cbn. apply T.
Qed.
Lemma stops_once {A} (c : option A) (D : raw -> res A) : stops D -> stops (once c D).
Proof.
  intros S. unfold once. destruct c; [split; discriminate|]. apply (stops_bind D (fun a => Ok (Some a))); eauto.
Qed.
Lemma stops_rmap {A} (D : raw -> res A) l l' e xs : stops D -> rmap D l = Ok xs -> cuts l l' e ->
  (let? ys := rmap D l' in close (Some e) ys) = Err InvalidState.
Proof.
  intros [S1 S2] H X. revert xs H. induction X as [|x x' l e X| |]; intros xs H.
  - reflexivity.
  - cbn in *. apply rbind_Ok in H as (a & H & _). now rewrite (S1 _ _ _ H X).
  - cbn in *. apply rbind_Ok in H as (a & H & _). destruct (S2 _ _ _ _ n' i' f' H) as [b ->]. reflexivity.
  - cbn in *. apply rbind_Ok in H as (a & H & K). apply rbind_Ok in K as (b & K & _). rewrite H. cbn.
    specialize (IHX _ K). destruct (rmap D l'); cbn in *; auto.
Qed.
Lemma stops_vec {A} (D : raw -> res A) : stops D -> stops (de_vec D).
Proof.
  intros S. split; [|discriminate]. intros r r' a H X. destruct X as [r|esc rd e L|l l' e X|]; [reflexivity|destruct rd; discriminate| |discriminate].
  cbn in *. apply rbind_Ok in H as (xs & H & _). eapply stops_rmap; eauto.
Qed.
Lemma stops_walk {S} (st : S -> bytes -> raw -> res S) l l' e : (forall s k, stops (st s k)) -> mcuts l l' e ->
  forall s s', walk st s l None = Ok s' -> walk st s l' (Some e) = Err InvalidState.
Proof.
  intros T X. induction X; intros s s' H0.
  - reflexivity.
  - cbn in *. apply rbind_Ok in H0 as (k & H0 & _). destruct rd; [discriminate|]. now rewrite (H _ eq_refl).
  - cbn in *. apply rbind_Ok in H0 as (k & -> & H0). apply rbind_Ok in H0 as (s1 & H0 & _). cbn.
    now rewrite (proj1 (T s k) _ _ _ H0 H).
  - cbn in *. apply rbind_Ok in H0 as (k & -> & H0). apply rbind_Ok in H0 as (s1 & H0 & _). cbn.
    destruct (proj2 (T s k) _ _ _ _ n' i' f' H0) as [b ->]. reflexivity.
  - destruct kv as [k0 v]. cbn in *. apply rbind_Ok in H0 as (k & -> & H0). apply rbind_Ok in H0 as (s1 & E & H0). cbn. rewrite E. cbn. eauto.
Qed.
Lemma stops_skip : stops skip.
Proof.
  split; [|intros; exists tt; reflexivity].
  induction r as [ | | | esc s | l tl IH | l tl IH | e1 e2 ] using raw_ind'; intros r' a H X; try (inversion X; subst; reflexivity).
  - inversion X as [| |? l' e C|]; subst; [reflexivity|]. cbn in *. clear X.
    match goal with |- rbind (?F l') _ = _ => set (F1 := F) in * end.
    apply rbind_Ok in H as ([] & H & _). induction C.
    + reflexivity.
    + inversion IH; subst. cbn in *. apply rbind_Ok in H as ([] & H & _). now rewrite (H3 _ _ H H0).
    + reflexivity.
    + inversion IH; subst. cbn in *. apply rbind_Ok in H as ([] & H & K). rewrite H. cbn. auto.
  - inversion X as [| | |? l' e C]; subst; [reflexivity|]. cbn in *. clear X.
    match goal with |- rbind (?F l') _ = _ => set (F1 := F) in * end.
    apply rbind_Ok in H as ([] & H & _). induction C.
    + reflexivity.
    + reflexivity.
    + inversion IH; subst. cbn in *. apply rbind_Ok in H as ([] & H & _). now rewrite (H3 _ _ H H0).
    + reflexivity.
    + inversion IH; subst. destruct kv as [k v]. cbn in *. apply rbind_Ok in H as ([] & H & K). rewrite H. cbn. auto.
Qed.
(** The next element, and the elements after it. *)
Definition no_number {A} (D : raw -> res A) : Prop := forall n i f a, D (RNum n i f) <> Ok a.
Lemma stops_elem {A X} (D : raw -> res A) (g h : A * list raw -> res X) l l' e x : stops D -> no_number D -> cuts l l' e ->
  rbind (elem D l None) g = Ok x ->
  (forall a l1 l1', g (a, l1) = Ok x -> cuts l1 l1' e -> h (a, l1') = Err InvalidState) ->
  rbind (elem D l' (Some e)) h = Err InvalidState.
Proof.
  intros [S1 S2] N C H G. apply rbind_Ok in H as ([a l1] & H & K). destruct C as [l|y y' l e C|n i f n' i' f' l|y l l' e C]; cbn in *.
  - reflexivity.
  - apply rbind_Ok in H as (b & H & _). now rewrite (S1 _ _ _ H C).
  - apply rbind_Ok in H as (b & H & _). now destruct (N _ _ _ _ H).
  - apply rbind_Ok in H as (b & H & E). injection E as <- <-. rewrite H. cbn. eauto.
Qed.
Lemma stops_end {A} (a b : A) l l' e x : cuts l l' e -> (let? _ := end_seq l None in Ok a) = Ok x -> (let? _ := end_seq l' (Some e) in Ok b) = Err InvalidState.
Proof. intros C H. destruct C; cbn in *; try discriminate. reflexivity. Qed.

(** A record written as an object or as an array. *)
Lemma stops_struct {A S} (D : raw -> res A) (st : S -> bytes -> raw -> res S) (s0 : S) (fin : S -> res A) :
  (forall l tl, D (RObj l tl) = rbind (walk st s0 l tl) fin) ->
  (forall s k, stops (st s k)) ->
  (forall l l' e a, cuts l l' e -> D (RArr l None) = Ok a -> D (RArr l' (Some e)) = Err InvalidState) ->
  (forall r, match r with RObj _ _ | RArr _ _ => True | _ => D r = mismatch r end) -> stops D /\ no_number D.
Proof.
  intros O W Q M. split; [split|].
  - intros r r' a H X. destruct X as [r|esc rd e L|l l' e X|l l' e X].
    + exact (M eof).
    + rewrite (M (RStr esc rd)) in H. destruct rd; discriminate.
    + eauto.
    + rewrite O in *. apply rbind_Ok in H as (s & H & _). now rewrite (stops_walk st l l' e W X _ _ H).
  - intros n i f a n' i' f' H. rewrite (M (RNum n i f)) in H. discriminate.
  - intros n i f a H. rewrite (M (RNum n i f)) in H. discriminate.
Qed.
Lemma no_borrowed : no_number de_borrowed. Proof. discriminate. Qed.
Lemma no_vec {A} (D : raw -> res A) : no_number (de_vec D). Proof. discriminate. Qed.
Ltac st := repeat lazymatch goal with
  | |- stops (fun v => if ?b then _ else _) => destruct b
  | |- stops (fun v => rbind (?D v) _) => apply (stops_bind D); [intros; eexists; reflexivity|]
  | |- stops (once _ _) => apply stops_once
  | |- stops (fun v => once ?c ?D v) => apply (stops_once c D)
  | |- stops de_borrowed => exact stops_borrowed
  | |- stops de_string => exact stops_string
  | |- stops (de_vec _) => apply stops_vec
  | |- stops skip => exact stops_skip
  | |- stops (fun v => skip v) => exact stops_skip
  end; auto.
Ltac sq := repeat lazymatch goal with
  | |- rbind (elem ?D _ (Some _)) _ = _ => eapply (stops_elem D); [now st|auto using no_borrowed, no_vec|eassumption|eassumption|cbv beta iota; intros]
  | |- rbind (end_seq _ _) _ = _ => eapply stops_end; eassumption
  end.
Ltac struct := intros; eapply stops_struct; [reflexivity|cbv beta; intros; repeat lazymatch goal with s : (_ * _)%type |- _ => destruct s end; st
  |intros; lazymatch goal with |- ?D (RArr _ _) = _ => unfold D in * end; cbv beta iota in *; sq|intros []; try exact I; reflexivity].

Lemma stops_kid_header : stops de_kid_header /\ no_number de_kid_header.
Proof. struct. Qed.
Lemma stops_recipient : stops de_recipient /\ no_number de_recipient.
Proof. destruct stops_kid_header. struct. Qed.
Lemma stops_jws_sig : stops de_jws_sig /\ no_number de_jws_sig.
Proof. destruct stops_kid_header. struct. Qed.
Lemma stops_jwe : stops de_jwe /\ no_number de_jwe.
Proof. destruct stops_recipient. struct. Qed.
Lemma stops_jws : stops de_jws /\ no_number de_jws.
Proof. destruct stops_jws_sig. struct. Qed.

(** ** The beginning of a JSON text *)
Lemma app_split (p q x y : bytes) : p ++ q = x ++ y ->
  (exists z, x = p ++ z /\ q = z ++ y /\ z <> []) \/ (exists z, p = x ++ z /\ y = z ++ q).
Proof.
  revert x. induction p as [|c p IH]; intros x E.
  - destruct x as [|c x]; [right; exists []; auto|]. left. exists (c :: x). repeat split; auto. discriminate.
  - destruct x as [|d x]; [right; exists (c :: p); auto|]. injection E as -> E. destruct (IH x E) as [(z & -> & -> & N)|(z & -> & ->)].
    + left. exists z. auto.
    + right. exists z. auto.
Qed.
Lemma ws_pre a p q : ws a -> a = p ++ q -> ws p /\ ws q.
Proof. intros W ->. now apply Forall_app. Qed.

(** *** Strings *)
Ltac nb := symmetry; repeat match goal with |- context [(?a <=? ?b)%N] => destruct (N.leb_spec a b) end; cbn; try reflexivity; exfalso; lia.
Lemma skip_pre cs : Forall char_ok cs -> forall p z, src cs = p ++ z -> snd (skip_str p) = inl JEof.
Proof.
  induction 1 as [|x cs O F IH]; intros p z E.
  - destruct p; [reflexivity|discriminate].
  - unfold src in E. cbn [flat_map] in E. fold (src cs) in E. symmetry in E.
    destruct (app_split _ _ _ _ E) as [(y & E1 & _ & N)|(y & -> & E2)].
    + destruct x as [c|e|a b c d]; cbn [char_src] in E1.
      * destruct p as [|? p]; [reflexivity|]. destruct p; [destruct y; [easy|discriminate]|discriminate].
      * destruct p as [|? [|? p]]; [reflexivity|injection E1 as <- _; reflexivity|]. destruct p; [destruct y; [easy|discriminate]|discriminate].
      * destruct p as [|? [|? p]]; [reflexivity|injection E1 as <- _; reflexivity|]. injection E1 as <- <- E1.
        destruct p as [|? [|? [|? [|? p]]]]; try reflexivity. destruct p; [destruct y; [easy|discriminate]|discriminate].
    + rewrite skip_str_char by auto. cbn [snd]. eauto.
Qed.
Lemma read_pre cs s : decodes cs s -> Forall char_ok cs -> forall p z, src cs = p ++ z -> read_str p = inl JEof.
Proof.
  induction 1 as [|c cs s D IH|e c cs s I D IH|a b c d n u cs s H S U D IH|a b c d n a' b' c' d' m u cs s H H' R R' U D IH]; intros O p z E.
  - destruct p; [reflexivity|discriminate].
  - inversion O as [|? ? O1 O2]; subst. cbn in E. destruct p as [|? p]; [reflexivity|]. injection E as <- E.
    rewrite read_plain by auto. rewrite (IH O2 p z E). reflexivity.
  - inversion O as [|? ? O1 O2]; subst. cbn in E. destruct p as [|? [|? p]]; [reflexivity|injection E as <- _; reflexivity|]. injection E as <- <- E.
    apply escapes_iff in I. change ("\"%char :: e :: p) with (char_src (CEsc e) ++ p). rewrite (read_esc e c p I), (IH O2 p z E). reflexivity.
  - inversion O as [|? ? O1 O2]; subst. cbn in E. destruct p as [|? [|? p]]; [reflexivity|injection E as <- _; reflexivity|]. injection E as <- <- E.
    destruct p as [|? [|? [|? [|? p]]]]; try reflexivity. injection E as <- <- <- <- E.
    apply hex4_iff in H. change ("\"%char :: "u"%char :: a :: b :: c :: d :: p) with (char_src (CHex a b c d) ++ p). rewrite (read_hex a b c d n p H).
    unfold surrogate in S. replace ((56320 <=? n) && (n <=? 57343))%N with false by nb. replace ((55296 <=? n) && (n <=? 56319))%N with false by nb.
    rewrite (IH O2 p z E). reflexivity.
  - inversion O as [|? ? O1 O2]; subst. inversion O2 as [|? ? O3 O4]; subst. cbn in E.
    destruct p as [|? [|? p]]; [reflexivity|injection E as <- _; reflexivity|]. injection E as <- <- E.
    destruct p as [|? [|? [|? [|? p]]]]; try reflexivity. injection E as <- <- <- <- E.
    apply hex4_iff in H, H'. change ("\"%char :: "u"%char :: a :: b :: c :: d :: p) with (char_src (CHex a b c d) ++ p). rewrite (read_hex a b c d n p H).
    replace ((56320 <=? n) && (n <=? 57343))%N with false by nb. replace ((55296 <=? n) && (n <=? 56319))%N with true by nb. cbv iota.
    destruct p as [|? [|? p]]; [reflexivity|injection E as <- _; reflexivity|]. injection E as <- <- E. cbn [negb].
    change (is_bslash "\") with true. change (("u" =? "u")%char) with true. cbn [negb].
    destruct p as [|? [|? [|? [|? p]]]]; try reflexivity. injection E as <- <- <- <- E. rewrite H'.
    replace ((56320 <=? m) && (m <=? 57343))%N with true by nb. rewrite (IH O4 p z E). reflexivity.
Qed.
Lemma pstring_pre cs p z : Forall char_ok cs -> src cs = p ++ z ->
  exists esc rd, pstring p = (esc, rd, inl JEof) /\ late (rd_utf8 cs) (err_of JEof rd).
Proof.
  intros O E. unfold pstring. pose proof (skip_pre cs O p z E) as K. destruct (skip_str p) as [esc sk]. cbn in K. subst sk.
  exists esc, (read_utf8 p). split; auto. intros x H. unfold read_utf8.
  assert (D : exists s, decodes cs s).
  { unfold rd_utf8 in H. destruct (rd_chars cs) as [|s] eqn:R; [discriminate|]. exists s. now apply decodes_iff. }
  destruct D as [s D]. now rewrite (read_pre cs s D O p z E).
Qed.

(** *** Numbers *)
Definition reads_on {A} (r : jerr + (A * bytes)) : Prop := r = inl JEof \/ exists x, r = inr (x, []).
Lemma digits_pre d p q : digits d -> d = p ++ q -> digits p.
Proof. unfold digits. intros D ->. rewrite forallb_app in D. now apply andb_prop in D as [D _]. Qed.
Lemma span_all d : digits d -> span_digits d = (d, []).
Proof. intros D. rewrite <- (app_nil_r d) at 1. now apply span_digits_app. Qed.
Lemma digit_not_sign c : is_digit c = true -> ((c =? "+") || (c =? "-"))%char = false.
Proof. destruct c as [[] [] [] [] [] [] [] []]; vm_compute; congruence. Qed.
Lemma digit_not_exp c : is_digit c = true -> ((c =? "e") || (c =? "E"))%char = false.
Proof. destruct c as [[] [] [] [] [] [] [] []]; vm_compute; congruence. Qed.
Lemma pexp_pre sg d p q : (sg = [] \/ sg = B "+" \/ sg = B "-") -> digits1 d -> sg ++ d = p ++ q -> reads_on (pexp p).
Proof.
  intros S [N D] E. apply digits_in in D. unfold pexp.
  assert (X : forall s1, digits s1 -> forall sg, reads_on (match s1 with [] => inl JEof
     | _ => match span_digits s1 with ([], _) => inl JSyn | (ds, r) => inr (sg ++ ds, r) end end)).
  { intros s1 D1 sg1. destruct s1 as [|c s1]; [now left|]. rewrite (span_all _ D1). right. eauto. }
  destruct S as [->|S].
  - cbn in E. assert (psign p = ([], p)) as ->; [|eapply X, digits_pre; eauto].
    destruct p as [|c p]; auto. cbn. pose proof (digits_pre _ _ _ D E) as D1. unfold digits in D1. cbn in D1. apply andb_prop in D1 as [D1 _].
    now rewrite (digit_not_sign c D1).
  - destruct p as [|c p]; [now left|]. destruct S as [->| ->]; injection E as <- E; cbn [psign];
      match goal with |- context [if ?b then _ else _] => change b with true end; cbv iota; eapply X, digits_pre; eauto.
Qed.
Lemma popt_exp_pre e p q acc : json_exp e -> e = p ++ q -> reads_on (popt_exp p acc).
Proof.
  intros J E. destruct p as [|c p]; [right; eexists; reflexivity|]. destruct J as [->|(c' & sg & d & -> & I & S & D)]; [discriminate|].
  injection E as -> E. cbn. replace ((c =? "e") || (c =? "E"))%char with true by (destruct I as [<-|[<-|[]]]; reflexivity).
  destruct (pexp_pre sg d p q S D E) as [->|(x & ->)]; [now left|right; eauto].
Qed.
Lemma frac_exp_head f e c t : json_frac f -> json_exp e -> f ++ e = c :: t -> is_digit c = false.
Proof.
  intros [->|(d & -> & _)] E.
  - destruct E as [->|(c' & sg & d & -> & I & _)]; [discriminate|]. cbn. injection 1 as <- _. destruct I as [<-|[<-|[]]]; reflexivity.
  - cbn. injection 1 as <- _. reflexivity.
Qed.
Lemma pfe_pre f e p q : json_frac f -> json_exp e -> f ++ e = p ++ q -> reads_on (pfe p).
Proof.
  intros F J E. destruct p as [|c p]; [right; eexists; reflexivity|]. destruct F as [->|(d & -> & N & D)].
  - cbn in E. assert (c <> "."%char).
    { intros ->. destruct J as [->|(c' & sg & d & -> & I & _)]; [discriminate|]. injection E as -> _. destruct I as [I|[I|[]]]; discriminate. }
    unfold pfe. destruct (Ascii.eqb_spec c "."); [easy|]. now apply (popt_exp_pre e _ q).
  - injection E as <- E. cbn [pfe]. change (("." =? ".")%char) with true. cbv iota. apply digits_in in D.
    symmetry in E. destruct (app_split _ _ _ _ E) as [(z & E1 & _ & _)|(z & -> & E2)].
    + pose proof (digits_pre _ _ _ D E1) as D1. destruct p as [|c p]; [now left|]. unfold pfrac. rewrite (span_all _ D1). right. eexists. reflexivity.
    + assert (S : span_digits (d ++ z) = (d, z)).
      { apply span_digits_app; auto. destruct z as [|c z]; auto. apply (frac_exp_head [] e c (z ++ q)); [now left|auto|exact E2]. }
      unfold pfrac. rewrite S. destruct d as [|c d]; [easy|]. cbn [app]. now apply (popt_exp_pre e _ q).
Qed.
Definition num_on (r : raw * option bytes) : Prop := r = (eof, None) \/ exists n i f, r = (RNum n i f, Some []).
Lemma pnum_body_pre neg i f e p q : json_int i -> json_frac f -> json_exp e -> i ++ f ++ e = p ++ q -> num_on (pnum_body neg p).
Proof.
  intros J F X E. destruct p as [|c p]; [now left|]. unfold pnum_body.
  destruct (int_start i J) as (c' & t & -> & D). injection E as -> E. rewrite D. cbn [negb]. destruct J as [J|(c1 & t1 & J & I & T)].
  - injection J as -> ->. change (("0" =? "0")%char) with true. cbv iota. cbn [app] in E. destruct p as [|d p]; [right; do 3 eexists; reflexivity|].
    rewrite (frac_exp_head f e d (p ++ q) F X E). destruct (pfe_pre f e (d :: p) q F X E) as [->|(x & ->)]; [now left|right; do 3 eexists; reflexivity].
  - injection J as <- <-. assert ((c =? "0")%char = false) as -> by (cbn in I; repeat (destruct I as [<-|I]; [reflexivity|]); easy).
    apply digits_in in T. symmetry in E. assert (DC : forall s, digits s -> digits (c :: s)) by (unfold digits; cbn; intros; now rewrite D).
    destruct (app_split _ _ _ _ E) as [(z & E1 & _ & _)|(z & -> & E2)].
    + rewrite (span_all (c :: p)) by (eapply DC, digits_pre; eauto). right. do 3 eexists. reflexivity.
    + change (c :: t ++ z) with ((c :: t) ++ z). rewrite span_digits_app; auto.
      * destruct (pfe_pre f e z q F X E2) as [->|(x & ->)]; [now left|right; do 3 eexists; reflexivity].
      * destruct z as [|d z]; auto. now apply (frac_exp_head f e d (z ++ q)).
Qed.
Lemma pnum_pre neg i f e p q : json_int i -> json_frac f -> json_exp e -> minus neg ++ i ++ f ++ e = p ++ q -> num_on (pnum p).
Proof.
  intros J F X E. destruct p as [|c p]; [now left|]. destruct neg; cbn [minus app] in E.
  - injection E as <- E. exact (pnum_body_pre true i f e p q J F X E).
  - unfold pnum. assert ((c =? "-")%char = false) as ->.
    { destruct (int_start i J) as (c' & t & -> & D). injection E as -> _. now apply digit_not_minus. }
    exact (pnum_body_pre false i f e (c :: p) q J F X E).
Qed.

(** *** Values *)
Ltac len L := repeat (progress (rewrite ?app_length in L; cbn [List.length B list_ascii_of_string] in L)); lia.
Definition cut_val (l : lex) (s : bytes) : Prop := forall fuel a p q, ws a -> s = p ++ q -> q <> [] -> 2 * List.length p < fuel ->
  (exists r', pval fuel (a ++ p) = (r', None) /\ cut (raw_lex l) r')
  \/ (exists n i f n' i' f', raw_lex l = RNum n i f /\ pval fuel (a ++ p) = (RNum n' i' f', Some [])).
Definition cut_elems (ls : list lex) (t : bytes) : Prop := forall fuel p q, t = p ++ q -> 2 * List.length p < fuel ->
  exists l' e, elem_of fuel p = (l', Some e, None) /\ cuts (map raw_lex ls) l' e.
Definition cut_members (ms : list (list schar * lex)) (t : bytes) : Prop := forall fuel p q, t = p ++ q -> 2 * List.length p < fuel ->
  exists l' e, member_of fuel p = (l', Some e, None) /\ mcuts (map raw_mem ms) l' e.

Lemma pval_blank f a : ws a -> pval (S f) a = (eof, None).
Proof. intros A. cbn [pval]. now rewrite (ws_skip a A). Qed.
Lemma parr_blank f first a : ws a -> parr (S f) first a = ([], Some JEof, None).
Proof. intros A. rewrite parr_S. now rewrite (ws_skip a A). Qed.
Lemma pobj_blank f first a : ws a -> pobj (S f) first a = ([], Some JEof, None).
Proof. intros A. rewrite pobj_S. now rewrite (ws_skip a A). Qed.
Lemma skip_head p r c t : skip_ws p = c :: t -> exists u, skip_ws (p ++ r) = c :: u.
Proof.
  induction p as [|d p IH]; [discriminate|]. cbn. destruct (is_ws d); [exact IH|]. injection 1 as -> ->. eauto.
Qed.
Lemma elems_head ls t p q : elements ls t -> t = p ++ q -> forall c u, skip_ws p = c :: u -> (c =? "]")%char = false.
Proof.
  intros H -> c u E. destruct reads_all as (_ & R & _). destruct (R ls _ H (S (List.length (p ++ q))) [] ltac:(lia)) as [(c' & u' & E' & K) _].
  rewrite <- app_assoc in E'. destruct (skip_head p (q ++ "]"%char :: []) c u E) as [v E2]. unfold bytes in *. rewrite E2 in E'. injection E' as -> _. exact K.
Qed.
Lemma fields_head ls t p q : fields ls t -> t = p ++ q -> forall c u, skip_ws p = c :: u -> (c =? "}")%char = false.
Proof.
  intros H -> c u E. destruct reads_all as (_ & _ & R). destruct (R ls _ H (S (List.length (p ++ q))) [] ltac:(lia)) as [(c' & u' & E' & K) _].
  rewrite <- app_assoc in E'. destruct (skip_head p (q ++ "}"%char :: []) c u E) as [v E2]. unfold bytes in *. rewrite E2 in E'. injection E' as -> _. exact K.
Qed.
(** One value of a list of elements, cut off. *)
Lemma cut_elem l s a b p q fuel ls : ws a -> written l s -> cut_val l s -> ws b -> a ++ s ++ b = p ++ q -> 2 * List.length p < fuel ->
  exists l' e, elem_of fuel p = (l', Some e, None) /\ cuts (raw_lex l :: ls) l' e.
Proof.
  intros A W H B0 E L. destruct fuel as [|f]; [lia|]. symmetry in E.
  destruct (app_split _ _ _ _ E) as [(z & E1 & _ & _)|(z & -> & E2)].
  { destruct (ws_pre _ _ _ A E1). exists [eof], JSyn. split; [unfold elem_of; now rewrite pval_blank|]. apply cs_in, cut_eof. }
  symmetry in E2. destruct (app_split _ _ _ _ E2) as [(y & E3 & _ & N)|(y & -> & E4)].
  - destruct (H (S f) a z y A E3 N) as [(r' & P & C)|(n & i & g & n' & i' & g' & R & P)]; [len L| |].
    + exists [r'], JSyn. split; [unfold elem_of; now rewrite P|]. now apply cs_in.
    + exists [RNum n' i' g'], JEof. split; [unfold elem_of; rewrite P; reflexivity|]. rewrite R. apply cs_num.
  - destruct (ws_pre _ _ _ B0 E4) as [Y _]. exists [raw_lex l], JEof. split; [|apply cs_more, cs_end].
    unfold elem_of. destruct reads_all as (R & _). rewrite (R l s W); [|auto|now apply ws_follow_nil|len L]. now rewrite parr_blank.
Qed.
Lemma cut_member k l s a b c d p q fuel ls : ws a -> Forall char_ok k -> ws b -> ws c -> written l s -> cut_val l s -> ws d ->
  a ++ quoted k ++ b ++ B ":" ++ c ++ s ++ d = p ++ q -> 2 * List.length p < fuel ->
  exists l' e, member_of fuel p = (l', Some e, None) /\ mcuts (raw_mem (k, l) :: ls) l' e.
Proof.
  intros A K B0 C W H D E L. destruct fuel as [|f]; [lia|]. symmetry in E. 
  destruct (app_split _ _ _ _ E) as [(z & E1 & _ & _)|(z & -> & E2)].
  { destruct (ws_pre _ _ _ A E1). exists [], JEof. split; [unfold member_of; now rewrite ws_skip|]. apply mc_end. }
  symmetry in E2. destruct (app_split _ _ _ _ E2) as [(y & E3 & _ & N)|(y & -> & E4)].
  { destruct z as [|c0 z].
    { exists [], JEof. split; [unfold member_of; rewrite app_nil_r; now rewrite ws_skip|]. apply mc_end. }
    change (quoted k) with (""""%char :: src k ++ B """") in E3. injection E3 as <- E3.
    assert (E5 : exists y', src k = z ++ y').
    { symmetry in E3. destruct (app_split _ _ _ _ E3) as [(y' & -> & _ & _)|(y' & -> & E5)]; [eauto|]. destruct y' as [|c1 y']; [exists []; now rewrite !app_nil_r|].
      destruct y' as [|]; [|discriminate]. injection E5 as _ E5. now subst y. }
    destruct E5 as [y' E5]. destruct (pstring_pre k z y' K E5) as (esc & rd & P & L1).
    exists [(inl (err_of JEof rd), eof)], JEof. split; [|now apply mc_key].
    unfold member_of. rewrite skip_ws_app by auto. cbn [skip_ws]. change (is_ws """") with false. cbv iota. change (is_quote """") with true. cbn [negb].
    rewrite P. reflexivity. }
  assert (M : forall r, member_of (S f) (a ++ quoted k ++ r) = match skip_ws r with
          | [] => ([(rd_utf8 k, RErr JEof JEof)], Some JEof, None)
          | d :: r' =>
              if negb (Ascii.eqb d ":") then ([(rd_utf8 k, RErr JSyn JSyn)], Some JSyn, None)
              else match pval (S f) r' with
              | (v, None) => ([(rd_utf8 k, v)], Some JSyn, None)
              | (v, Some r'') => match pobj (S f) false r'' with (l, tl, k') => ((rd_utf8 k, v) :: l, tl, k') end
              end
          end).
  { intros r. unfold member_of. rewrite skip_ws_app by auto. rewrite quoted_app. cbn [skip_ws]. change (is_ws """") with false. cbv iota.
    change (is_quote """") with true. cbn [negb]. rewrite pstring_src by auto. reflexivity. }
  rewrite M. symmetry in E4. destruct (app_split _ _ _ _ E4) as [(x & E5 & _ & _)|(x & -> & E6)].
  { destruct (ws_pre _ _ _ B0 E5) as [Y _]. rewrite (ws_skip y Y). exists [(rd_utf8 k, eof)], JEof. split; [reflexivity|]. apply mc_in, cut_eof. }
  rewrite skip_ws_app by auto. destruct x as [|c1 x].
  { exists [(rd_utf8 k, eof)], JEof. split; [reflexivity|]. apply mc_in, cut_eof. }
  injection E6 as <- E6. cbn [skip_ws]. change (is_ws ":") with false. cbv iota. change ((":" =? ":")%char) with true. cbn [negb].
  symmetry in E6. destruct (app_split _ _ _ _ E6) as [(w & E7 & _ & _)|(w & -> & E8)].
  { destruct (ws_pre _ _ _ C E7) as [X _]. rewrite pval_blank by auto. exists [(rd_utf8 k, eof)], JSyn. split; [reflexivity|]. apply mc_in, cut_eof. }
  symmetry in E8. destruct (app_split _ _ _ _ E8) as [(v & E9 & _ & N)|(v & -> & E10)].
  - destruct (H (S f) c w v C E9 N) as [(r' & P & X)|(n & i & g & n' & i' & g' & R & P)]; [len L| |].
    + exists [(rd_utf8 k, r')], JSyn. split; [now rewrite P|]. now apply mc_in.
    + exists [(rd_utf8 k, RNum n' i' g')], JEof. split; [rewrite P; reflexivity|]. unfold raw_mem. cbn [fst snd]. rewrite R. apply mc_num.
  - destruct (ws_pre _ _ _ D E10) as [Y _]. exists [(rd_utf8 k, raw_lex l)], JEof. split; [|apply mc_more, mc_end].
    destruct reads_all as (R & _). rewrite (R l s W); [|auto|now apply ws_follow_nil|len L]. now rewrite pobj_blank.
Qed.

Lemma cut_all : (forall l s, written l s -> written l s /\ cut_val l s) /\ (forall ls t, elements ls t -> elements ls t /\ cut_elems ls t)
  /\ (forall ms t, fields ms t -> fields ms t /\ cut_members ms t).
Proof.
  assert (Z : forall f a, ws a -> pval (S f) (a ++ []) = (eof, None)) by (intros; rewrite app_nil_r; now apply pval_blank).
  apply written_all.
  - split; [constructor|]. intros fuel a p q A E N L. destruct fuel as [|f]; [lia|]. left. exists eof. split; [|apply cut_eof].
    destruct p as [|? [|? [|? [|? [|? p]]]]]; cbn in E; try discriminate; inversion E; subst; try (now apply Z); try easy;
      cbn [pval]; rewrite skip_ws_app by auto; reflexivity.
  - split; [constructor|]. intros fuel a p q A E N L. destruct fuel as [|f]; [lia|]. left. exists eof. split; [|apply cut_eof].
    destruct p as [|? [|? [|? [|? [|? p]]]]]; cbn in E; try discriminate; inversion E; subst; try (now apply Z); try easy;
      cbn [pval]; rewrite skip_ws_app by auto; reflexivity.
  - split; [constructor|]. intros fuel a p q A E N L. destruct fuel as [|f]; [lia|]. left. exists eof. split; [|apply cut_eof].
    destruct p as [|? [|? [|? [|? [|? [|? p]]]]]]; cbn in E; try discriminate; inversion E; subst; try (now apply Z); try easy;
      cbn [pval]; rewrite skip_ws_app by auto; reflexivity.
  - intros neg i f e J F X. split; [now constructor|]. intros fuel a p q A E N L. destruct fuel as [|g]; [lia|].
    destruct p as [|c p]; [left; exists eof; split; [now apply Z|apply cut_eof]|].
    assert (P : pval (S g) (a ++ c :: p) = pnum (c :: p)).
    { destruct (num_starts neg i (f ++ e) J) as (c' & t & E1 & H). unfold bytes in *. rewrite E1 in E. injection E as -> _.
      apply num_start_facts in H as H'. destruct H' as (H1 & H2 & H3 & H4 & H5 & H6 & H7 & _ & _).
      cbn [pval]. rewrite skip_ws_app by auto. cbn [skip_ws]. rewrite H1, H2, H3, H4, H5, H6, H7. unfold num_start in H. now rewrite H. }
    rewrite P. destruct (pnum_pre neg i f e (c :: p) q J F X E) as [->|(n' & i' & f' & ->)].
    + left. exists eof. split; [reflexivity|apply cut_eof].
    + right. cbn. do 6 eexists. split; reflexivity.
  - intros cs O. split; [now constructor|]. intros fuel a p q A E N L. destruct fuel as [|g]; [lia|]. left.
    destruct p as [|c p]; [exists eof; split; [now apply Z|apply cut_eof]|].
    change (quoted cs) with (""""%char :: src cs ++ B """") in E. injection E as <- E.
    assert (E5 : exists y', src cs = p ++ y').
    { symmetry in E. destruct (app_split _ _ _ _ E) as [(y' & -> & _ & _)|(y' & -> & E5)]; [eauto|]. destruct y' as [|c1 y']; [exists []; now rewrite !app_nil_r|].
      destruct y' as [|]; [|discriminate]. injection E5 as _ E5. now subst q. }
    destruct E5 as [y' E5]. destruct (pstring_pre cs p y' O E5) as (esc & rd & P & L1).
    exists (RErr (err_of JEof rd) JEof). split; [|now apply cut_str].
    cbn [pval]. rewrite skip_ws_app by auto. cbn [skip_ws]. change (is_ws """") with false. change (is_quote """") with true. cbv iota. now rewrite P.
  - intros b B0. split; [now constructor|]. intros fuel a p q A E N L. destruct fuel as [|g]; [lia|]. left.
    destruct p as [|c p]; [exists eof; split; [now apply Z|apply cut_eof]|]. cbn in E. injection E as <- E. 
    assert (P : ws p).
    { symmetry in E. destruct (app_split _ _ _ _ E) as [(y & -> & _ & _)|(y & -> & E5)]; [now apply Forall_app in B0|]. destruct y as [|c1 y]; [now rewrite app_nil_r|].
      destruct y as [|]; [|discriminate]. injection E5 as _ E5. now subst q. }
    exists (RArr [] (Some JEof)). split; [|apply (cut_arr [] []), cs_end]. destruct g as [|g]; [cbn [List.length] in L; lia|].
    cbn [pval]. rewrite skip_ws_app by auto. cbn [skip_ws]. change (is_ws "[") with false. cbv iota.
    change (is_quote "[") with false. change (("[" =? "{")%char) with false. change (("[" =? "[")%char) with true. cbv iota.
    now rewrite parr_blank.
  - intros ls t W [W' H]. split; [now constructor|]. intros fuel a p q A E N L. destruct fuel as [|g]; [lia|]. left.
    destruct p as [|c p]; [exists eof; split; [now apply Z|apply cut_eof]|]. cbn in E. injection E as <- E. 
    assert (P : exists y, t = p ++ y).
    { symmetry in E. destruct (app_split _ _ _ _ E) as [(y & -> & _ & _)|(y & -> & E5)]; [eauto|]. destruct y as [|c1 y]; [exists []; now rewrite !app_nil_r|].
      destruct y as [|]; [|discriminate]. injection E5 as _ E5. now subst q. }
    destruct P as [y P]. destruct g as [|g]; [cbn [List.length] in L; lia|].
    assert (Q : exists l' e, parr (S g) true p = (l', Some e, None) /\ cuts (map raw_lex ls) l' e).
    { rewrite parr_S. destruct (skip_ws p) as [|c u] eqn:S; [exists [], JEof; split; [reflexivity|apply cs_end]|].
      rewrite (elems_head ls t p y W P c u S), <- S, elem_ws. apply (H g p y P). cbn [List.length] in L; lia. }
    destruct Q as (l' & e & Q & C). exists (RArr l' (Some e)). split; [|now apply cut_arr].
    cbn [pval]. rewrite skip_ws_app by auto. cbn [skip_ws]. change (is_ws "[") with false. cbv iota.
    change (is_quote "[") with false. change (("[" =? "{")%char) with false. change (("[" =? "[")%char) with true. cbv iota. now rewrite Q.
  - intros b B0. split; [now constructor|]. intros fuel a p q A E N L. destruct fuel as [|g]; [lia|]. left.
    destruct p as [|c p]; [exists eof; split; [now apply Z|apply cut_eof]|]. cbn in E. injection E as <- E. 
    assert (P : ws p).
    { symmetry in E. destruct (app_split _ _ _ _ E) as [(y & -> & _ & _)|(y & -> & E5)]; [now apply Forall_app in B0|]. destruct y as [|c1 y]; [now rewrite app_nil_r|].
      destruct y as [|]; [|discriminate]. injection E5 as _ E5. now subst q. }
    exists (RObj [] (Some JEof)). split; [|apply (cut_obj [] []), mc_end]. destruct g as [|g]; [cbn [List.length] in L; lia|].
    cbn [pval]. rewrite skip_ws_app by auto. cbn [skip_ws]. change (is_ws "{") with false. cbv iota.
    change (is_quote "{") with false. change (("{" =? "{")%char) with true. cbv iota.
    now rewrite pobj_blank.
  - intros ms t W [W' H]. split; [now constructor|]. intros fuel a p q A E N L. destruct fuel as [|g]; [lia|]. left.
    destruct p as [|c p]; [exists eof; split; [now apply Z|apply cut_eof]|]. cbn in E. injection E as <- E. 
    assert (P : exists y, t = p ++ y).
    { symmetry in E. destruct (app_split _ _ _ _ E) as [(y & -> & _ & _)|(y & -> & E5)]; [eauto|]. destruct y as [|c1 y]; [exists []; now rewrite !app_nil_r|].
      destruct y as [|]; [|discriminate]. injection E5 as _ E5. now subst q. }
    destruct P as [y P]. destruct g as [|g]; [cbn [List.length] in L; lia|].
    assert (Q : exists l' e, pobj (S g) true p = (l', Some e, None) /\ mcuts (map raw_mem ms) l' e).
    { rewrite pobj_S. destruct (skip_ws p) as [|c u] eqn:S; [exists [], JEof; split; [reflexivity|apply mc_end]|].
      rewrite (fields_head ms t p y W P c u S), <- S, member_ws. apply (H g p y P). cbn [List.length] in L; lia. }
    destruct Q as (l' & e & Q & C). exists (RObj l' (Some e)). split; [|now apply cut_obj].
    cbn [pval]. rewrite skip_ws_app by auto. cbn [skip_ws]. change (is_ws "{") with false. cbv iota.
    change (is_quote "{") with false. change (("{" =? "{")%char) with true. cbv iota. now rewrite Q.
  - intros a l s b A W [_ H] B0. split; [now constructor|]. intros fuel p q E L. now apply (cut_elem l s a b p q fuel []).
  - intros a l s b ls t A W [_ H] B0 W2 [_ H2]. split; [now constructor|]. intros fuel p q E L.  cbn [map].
    assert (X : exists z, p ++ q = (a ++ s ++ b) ++ z /\ z = B "," ++ t) by (eexists; split; [rewrite <- E, <- !app_assoc; reflexivity|reflexivity]).
    destruct X as (z & X & ->). destruct (app_split _ _ _ _ X) as [(y & E1 & _ & _)|(y & -> & E2)].
    + apply (cut_elem l s a b p y fuel); auto.
    + destruct y as [|c y].
      { apply (cut_elem l s a b _ [] fuel); auto; now rewrite !app_nil_r. }
      injection E2 as <- E2. destruct reads_all as (R & _). unfold elem_of. rewrite <- !app_assoc.
      rewrite (R l s W); [|auto|now apply ws_follow; cbn; auto|pose proof (written_len l s W); len L].
      destruct fuel as [|f]; [lia|]. rewrite parr_S, skip_ws_app by auto. cbn [skip_ws]. change (is_ws ",") with false. cbv iota.
      change (("," =? "]")%char) with false. change (("," =? ",")%char) with true. cbv iota.
      destruct (skip_ws y) as [|c u] eqn:S; [exists [raw_lex l], JEof; split; [reflexivity|apply cs_more, cs_end]|].
      rewrite (elems_head ls t y q W2 E2 c u S). destruct (H2 f y q E2) as (l' & e & -> & C); [pose proof (written_len l s W); len L|]. exists (raw_lex l :: l'), e. split; [reflexivity|]. now apply cs_more.
  - intros a k b c l s d A K B0 C W [_ H] D. split; [now constructor|]. intros fuel p q E L. now apply (cut_member k l s a b c d p q fuel []).
  - intros a k b c l s d ms t A K B0 C W [_ H] D W2 [_ H2]. split; [now constructor|]. intros fuel p q E L.  cbn [map].
    assert (X : exists z, p ++ q = (a ++ quoted k ++ b ++ B ":" ++ c ++ s ++ d) ++ z /\ z = B "," ++ t) by (eexists; split; [rewrite <- E, <- !app_assoc; reflexivity|reflexivity]).
    destruct X as (z & X & ->). destruct (app_split _ _ _ _ X) as [(y & E1 & _ & _)|(y & -> & E2)].
    + apply (cut_member k l s a b c d p y fuel); auto.
    + destruct y as [|c0 y].
      { apply (cut_member k l s a b c d _ [] fuel); auto; now rewrite !app_nil_r. }
      injection E2 as <- E2. destruct reads_all as (R & _). pose proof (written_len l s W). pose proof (quoted_len k).
      destruct (member_step fuel a k b c s (d ++ ","%char :: y) l) as [_ M]; auto; [now apply ws_follow; cbn; auto|len L|].
      replace ((a ++ quoted k ++ b ++ B ":" ++ c ++ s ++ d) ++ ","%char :: y) with ((a ++ quoted k ++ b ++ B ":" ++ c ++ s) ++ d ++ ","%char :: y) by (rewrite <- !app_assoc; reflexivity).
      rewrite M. destruct fuel as [|f]; [lia|]. rewrite pobj_S, skip_ws_app by auto. cbn [skip_ws]. change (is_ws ",") with false. cbv iota.
      change (("," =? "}")%char) with false. change (("," =? ",")%char) with true. cbv iota.
      destruct (skip_ws y) as [|c1 u] eqn:S; [exists [raw_mem (k, l)], JEof; split; [reflexivity|apply mc_more, mc_end]|].
      rewrite (fields_head ms t y q W2 E2 c1 u S). destruct (H2 f y q E2) as (l' & e & -> & C1); [len L|]. exists (raw_mem (k, l) :: l'), e. split; [reflexivity|]. now apply mc_more.
Qed.

(** ** Whole texts *)
Lemma parse_cut l t p q : spells l t -> t = p ++ q -> ~ ws q ->
  (exists r' e, parse p = (r', Some e) /\ cut (raw_lex l) r') \/ (exists n i f, raw_lex l = RNum n i f).
Proof.
  intros (a & s & b & A & W & B0 & E) -> N. destruct (app_split _ _ _ _ E) as [(z & E1 & _ & _)|(z & -> & E2)].
  - destruct (ws_pre _ _ _ A E1) as [P _]. left. exists eof, JSyn. split; [|apply cut_eof]. unfold parse. now rewrite pval_blank.
  - symmetry in E2. destruct (app_split _ _ _ _ E2) as [(y & E3 & _ & Y)|(y & -> & E4)].
    + destruct cut_all as (H & _). destruct (H l s W) as [_ C].
      destruct (C (S (List.length (a ++ z) + List.length (a ++ z))) a z y A E3 Y) as [(r' & P & X)|(n & i & g & n' & i' & g' & R & P)];
        [rewrite app_length; lia| |right; eauto].
      left. exists r', JSyn. split; auto. unfold parse. now rewrite P.
    + destruct N. now apply (ws_pre b y q).
Qed.
Lemma json_stops {A} (D : raw -> res A) p q a : stops D -> no_number D -> from_json D (p ++ q) = Ok a -> ~ ws q ->
  from_json D p = Err InvalidState.
Proof.
  intros [S _] N H W. apply from_json_iff in H as (l & L & H).
  destruct (parse_cut l _ p q L eq_refl W) as [(r' & e & P & C)|(n & i & f & E)].
  - unfold from_json. rewrite P, (S _ _ _ H C). reflexivity.
  - rewrite E in H. now destruct (N _ _ _ _ H).
Qed.
