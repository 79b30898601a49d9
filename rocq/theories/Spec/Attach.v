(** Attachments that carry a signature of their own: specification. *)
From Verif.Model Require Import Prelude Base64 Json DidDoc Crypto Keys Effects Message.
From Verif.Spec Require Import Small Events World.

(** The member [jws] of the data of an attachment, "a JWS in detached content format of
    the encoded content". *)
Definition own_jws (a : attachment) : option bytes :=
  match att_data a with ABase64 _ j => j | AJson _ j => j | ALinks _ _ j => j end.

(** The least that verifying the signature carried by the attachment takes: somebody's DID
    document, for the key, was obtained. *)
Definition checkable (tr : list event) (a : attachment) : Prop :=
  own_jws a <> None -> exists did doc, resolved tr did doc.

(** The message with other attachments. *)
Definition with_attachments (l : option (list attachment)) (m : message) : message := {|
  msg_id := msg_id m; msg_typ := msg_typ m; msg_type := msg_type m; msg_body := msg_body m;
  msg_from := msg_from m; msg_to := msg_to m; msg_thid := msg_thid m; msg_pthid := msg_pthid m;
  msg_extra := msg_extra m; msg_created := msg_created m; msg_expires := msg_expires m;
  msg_from_prior := msg_from_prior m; msg_attachments := l |}.

(** Both succeed, or both end in the same way. *)
Definition same_outcome {A} (r r' : res A) : Prop :=
  match r, r' with Ok _, Ok _ => True | Err k, Err k' => k = k' | Panic, Panic => True | _, _ => False end.
