(** Resolvers written in JavaScript that answer from fixed data. *)
From Verif.Model Require Import Prelude Utf8 Json DidDoc Crypto Effects Message Bindings DocJson.
From Verif.Spec Require Import Codec Small World Wire Doc.

(** What such resolvers answer: [docs did] is the value that resolve(did) gives, [secs id]
    the one that get_secret(id) gives; find_secrets lists, in any order and among
    whatever else, those of the given ids for which there is one. *)
Definition js_says (fp : bytes -> option bytes) (docs secs : bytes -> value) (e : event) : Prop :=
  match e with
  | Ev (OResolve did) r => r = js_resolve fp (inr (print (docs did)))
  | Ev (OFindSecrets ids) r =>
      exists l, r = js_find_secrets ids (inr (Some l)) /\ forall i, In i ids -> (In (Some i) l <-> secs i <> VNull)
  | Ev (OGetSecret i) r => r = js_get_secret fp (inr (print (secs i)))
  | Ev (ORandom RUuid) r => utf8 r = true
  | Ev (ORandom _) _ => True
  end.

(** The values describe the documents of [dir] and the secrets of [own]; null stands for
    none. *)
Definition describes {A} (fp : bytes -> option bytes) (reads : value -> A -> Prop) (vals : bytes -> value) (f : bytes -> option A) : Prop :=
  forall i, json_tree fp 127 (vals i) /\ match f i with None => vals i = VNull | Some a => reads (vals i) a end.

(** ** JSON values that cross the border of a language binding on their own *)

(** The JSON values within a message. *)
Definition json_in (m : message) (v : value) : Prop :=
  v = msg_body m \/ (exists k, In (k, v) (msg_extra m))
  \/ exists l a j, msg_attachments m = Some l /\ In a l /\ att_data a = AJson v j.
(** The same message with another body. *)
Definition with_body (v : value) (m m' : message) : Prop :=
  msg_id m' = msg_id m /\ msg_typ m' = msg_typ m /\ msg_type m' = msg_type m /\ msg_body m' = v
  /\ msg_from m' = msg_from m /\ msg_to m' = msg_to m /\ msg_thid m' = msg_thid m /\ msg_pthid m' = msg_pthid m
  /\ msg_extra m' = msg_extra m /\ msg_created m' = msg_created m /\ msg_expires m' = msg_expires m
  /\ msg_from_prior m' = msg_from_prior m /\ msg_attachments m' = msg_attachments m.
(** At least [n] arrays and objects within one another. *)
Inductive deep : nat -> value -> Prop :=
| deep_0 v : deep 0 v
| deep_arr n l x : In x l -> deep n x -> deep (S n) (VArr l)
| deep_obj n l k x : In (k, x) l -> deep n x -> deep (S n) (VObj l)
| deep_arr1 l : deep 1 (VArr l)
| deep_obj1 l : deep 1 (VObj l).
