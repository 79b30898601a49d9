(** Names that JSON cannot carry as they are. *)
From Verif.Model Require Import Prelude Json Message.

(** Some character must be escaped in a JSON string. *)
Definition escaped (s : bytes) : Prop :=
  exists c, In c s /\ ((N_of_ascii c < 32)%N \/ c = """"%char \/ c = "\"%char).

(** The standard headers that a message has. *)
Definition taken (m : message) (k : bytes) : Prop :=
  k = B "id" \/ k = B "typ" \/ k = B "type" \/ k = B "body"
  \/ k = B "from" /\ msg_from m <> None \/ k = B "to" /\ msg_to m <> None
  \/ k = B "thid" /\ msg_thid m <> None \/ k = B "pthid" /\ msg_pthid m <> None
  \/ k = B "created_time" /\ msg_created m <> None \/ k = B "expires_time" /\ msg_expires m <> None
  \/ k = B "from_prior" /\ msg_from_prior m <> None \/ k = B "attachments" /\ msg_attachments m <> None.
