(** What any message that was read looks like: specification. *)
From Verif.Model Require Import Prelude Utf8 Json DidDoc Crypto Keys Effects Message FromPrior.
From Verif.Spec Require Import Codec Small World.

Section Sane.
Context (C : crypto).

(** Every string is UTF-8, every time is a u64, all JSON is a [serde_json::Value] (numbers
    in range, member names increasing) nested at most so deep, custom header names are
    distinct and none is the name of a standard header.  In contrast to [message_fits]
    the typ may be anything and so may the choice of custom names. *)
Definition message_sane (m : message) : Prop :=
  text_ok (msg_id m) /\ text_ok (msg_typ m) /\ text_ok (msg_type m)
  /\ json_value (fparse C) 126 (msg_body m)
  /\ opt text_ok (msg_from m) /\ opt (Forall text_ok) (msg_to m)
  /\ opt text_ok (msg_thid m) /\ opt text_ok (msg_pthid m)
  /\ opt time_ok (msg_created m) /\ opt time_ok (msg_expires m)
  /\ opt text_ok (msg_from_prior m) /\ opt (Forall (attachment_fits C)) (msg_attachments m)
  /\ NoDup (map fst (msg_extra m))
  /\ (forall k v, In (k, v) (msg_extra m) -> text_ok k /\ ~ In k standard_headers /\ json_value (fparse C) 126 v).

(** The custom headers do not look like those of an envelope. *)
Definition no_imitation (m : message) : Prop :=
  ~ incl jwe_names (map fst (msg_extra m)) /\ ~ incl jws_names (map fst (msg_extra m)).
End Sane.
