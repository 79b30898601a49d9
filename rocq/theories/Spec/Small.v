(** Specifications of the small components: DID splitting, example resolvers,
    message builder, callbacks. *)
From Verif.Model Require Import Prelude Json Base58 DidDoc Message FromPrior Bindings.

(** ** Subsequences *)
Inductive sublist {A} : list A -> list A -> Prop :=
| sub_nil : sublist [] []
| sub_skip x l l' : sublist l l' -> sublist l (x :: l')
| sub_keep x l l' : sublist l l' -> sublist (x :: l) (x :: l').

(** [first_with P l x]: [x] is the first element of [l] with [P]. *)
Definition first_with {A} (P : A -> Prop) (l : list A) (x : A) : Prop :=
  exists l1 l2, l = l1 ++ x :: l2 /\ P x /\ forall y, In y l1 -> ~ P y.

(** ** The message builder *)
Inductive bop :=
| BTo (d : bytes) | BToMany (l : list bytes) | BFrom (d : bytes) | BThid (s : bytes) | BPthid (s : bytes)
| BHeader (k : bytes) (v : value) | BCreated (n : N) | BExpires (n : N) | BFromPrior (s : bytes)
| BAttachment (a : attachment) | BAttachments (l : list attachment).

(** The last value set, if any. *)
Fixpoint last_set {O A} (f : O -> option A) (l : list O) : option A :=
  match l with
  | [] => None
  | o :: l' => match last_set f l' with Some a => Some a | None => f o end
  end.
(** Everything appended, in order; [None] when the setter was never called. *)
Fixpoint appended {A} (f : bop -> option (list A)) (l : list bop) : option (list A) :=
  match l with
  | [] => None
  | o :: l' => match f o, appended f l' with
               | Some a, Some b => Some (a ++ b)
               | Some a, None => Some a
               | None, b => b
               end
  end.

Definition set_to o := match o with BTo d => Some [d] | BToMany l => Some l | _ => None end.
Definition set_from o := match o with BFrom d => Some d | _ => None end.
Definition set_thid o := match o with BThid d => Some d | _ => None end.
Definition set_pthid o := match o with BPthid d => Some d | _ => None end.
Definition set_created o := match o with BCreated d => Some d | _ => None end.
Definition set_expires o := match o with BExpires d => Some d | _ => None end.
Definition set_from_prior o := match o with BFromPrior d => Some d | _ => None end.
Definition set_attachments o := match o with BAttachment a => Some [a] | BAttachments l => Some l | _ => None end.
Definition set_header (k : bytes) o :=
  match o with BHeader k' v => if list_eq_dec ascii_dec k k' then Some v else None | _ => None end.

(** A sequence of builder calls on the model. *)
Definition build_op (m : message) (o : bop) : message :=
  match o with
  | BTo d => mb_to d m | BToMany l => mb_to_many l m | BFrom d => mb_from d m | BThid s => mb_thid s m
  | BPthid s => mb_pthid s m | BHeader k v => mb_header k v m | BCreated n => mb_created n m
  | BExpires n => mb_expires n m | BFromPrior s => mb_from_prior s m
  | BAttachment a => mb_attachment a m | BAttachments l => mb_attachments l m
  end.
Definition build (id type_ : bytes) (body : value) (ops : list bop) : message :=
  fold_left build_op ops (mb_new id type_ body).

(** ** Callbacks *)
(** What can happen to a one-shot result object: the foreign side answers, the
    awaiting future is dropped, the foreign side drops the object. *)
Inductive cb_op (A : Type) := CCall (r : res A) | CCancel | CDrop.
Arguments CCall {A}. Arguments CCancel {A}. Arguments CDrop {A}.

(** Run a sequence of events; collects what each call returned to its caller. *)
Fixpoint cb_run {A} (s : cb_state A) (l : list (cb_op A)) : list (res unit) * cb_state A :=
  match l with
  | [] => ([], s)
  | CCall r :: l' => let (x, s') := cb_call r s in let (xs, s'') := cb_run s' l' in (x :: xs, s'')
  | CCancel :: l' => cb_run (cb_cancel s) l'
  | CDrop :: l' => cb_run (cb_drop s) l'
  end.
(** The answers given, in order. *)
Definition cb_answers {A} (l : list (cb_op A)) : list (res A) :=
  flat_map (fun o => match o with CCall r => [r] | _ => [] end) l.

(** ** The attachment and from_prior builders *)
Inductive aop := AId (x : bytes) | ADescription (x : bytes) | AFilename (x : bytes) | AMediaType (x : bytes)
| AFormat (x : bytes) | ALastmod (n : N) | AByteCount (n : N) | AJws (x : bytes).
Definition abuild_op (a : attachment) (o : aop) : attachment :=
  match o with
  | AId x => ab_id x a | ADescription x => ab_description x a | AFilename x => ab_filename x a
  | AMediaType x => ab_media_type x a | AFormat x => ab_format x a | ALastmod n => ab_lastmod n a
  | AByteCount n => ab_count n a | AJws x => ab_jws x a
  end.
(** The content given at construction, with the last detached signature set. *)
Definition with_jws (d : attachment_data) (j : option bytes) : attachment_data :=
  match j with
  | None => d
  | Some j => match d with
              | ABase64 s _ => ABase64 s (Some j)
              | AJson v _ => AJson v (Some j)
              | ALinks l h _ => ALinks l h (Some j)
              end
  end.
Inductive fop := FAud (x : bytes) | FExp (n : N) | FNbf (n : N) | FIat (n : N) | FJti (x : bytes).
Definition fbuild_op (p : from_prior) (o : fop) : from_prior :=
  match o with
  | FAud x => fpb_aud x p | FExp n => fpb_exp n p | FNbf n => fpb_nbf n p | FIat n => fpb_iat n p
  | FJti x => fpb_jti x p
  end.

(** Setters that write different parts of a message. *)
Inductive field := FTo | FFrom | FThid | FPthid | FHeader (k : bytes) | FCreated | FExpires | FFromPrior | FAttachments.
Definition field_of (o : bop) : field :=
  match o with
  | BTo _ | BToMany _ => FTo | BFrom _ => FFrom | BThid _ => FThid | BPthid _ => FPthid
  | BHeader k _ => FHeader k | BCreated _ => FCreated | BExpires _ => FExpires | BFromPrior _ => FFromPrior
  | BAttachment _ | BAttachments _ => FAttachments
  end.
(** Messages equal up to the iteration order of the extra headers. *)
Definition same_message (m m' : message) : Prop :=
  msg_id m = msg_id m' /\ msg_typ m = msg_typ m' /\ msg_type m = msg_type m' /\ msg_body m = msg_body m'
  /\ msg_to m = msg_to m' /\ msg_from m = msg_from m' /\ msg_thid m = msg_thid m' /\ msg_pthid m = msg_pthid m'
  /\ msg_created m = msg_created m' /\ msg_expires m = msg_expires m' /\ msg_from_prior m = msg_from_prior m'
  /\ msg_attachments m = msg_attachments m'
  /\ forall k, amap_get k (msg_extra m) = amap_get k (msg_extra m').

(** JSON white space. *)
Definition white (w : bytes) : Prop := Forall (fun c => In (N_of_ascii c) [32; 9; 10; 13]%N) w.

(** ** Base58 *)
Definition alphabet58 : bytes := B "123456789ABCDEFGHJKLMNPQRSTUVWXYZabcdefghijkmnopqrstuvwxyz".
(** Value of a digit sequence, most significant digit first. *)
Definition be_value (base : N) (ds : list N) : N := fold_left (fun a d => (a * base + d)%N) ds 0%N.
(** [is_base58 x t]: [t] is the Bitcoin base58 text of [x]: one "1" per leading zero
    byte, then the number the remaining bytes denote, written in base 58 without
    leading zero digit. *)
Definition is_base58 (x t : bytes) : Prop :=
  exists z x' t' ds,
    x = repeat zero z ++ x' /\ t = repeat "1"%char z ++ t'
    /\ Forall2 (fun c d => nth_error alphabet58 (N.to_nat d) = Some c) t' ds
    /\ be_value 58 ds = be_value 256 (map N_of_ascii x')
    /\ (forall y, x' <> zero :: y) /\ (forall y, t' <> "1"%char :: y).

(** Multicodec prefixes (unsigned varint) of the four key kinds. *)
Definition prefix_of (c : codec) : bytes :=
  match c with
  | CX25519Pub => [ascii_of_N 0xEC; ascii_of_N 1]
  | CEd25519Pub => [ascii_of_N 0xED; ascii_of_N 1]
  | CX25519Priv => [ascii_of_N 0x82; ascii_of_N 0x26]
  | CEd25519Priv => [ascii_of_N 0x80; ascii_of_N 0x26]
  end.
