(** Properties C34 and C35: the text codecs. *)
From Verif.Model Require Import Prelude Utf8 Base64 Json.
From Verif.Spec Require Import Codec.
From Verif.Proofs Require Import Lib Base64P JsonP JsonDec CodecP.

(** C34.  The encoder produces the RFC 4648 base64url text. *)
Theorem C34_base64_encodes : forall s, is_base64url s (b64enc s).
Proof. exact b64enc_spec. Qed.
Print Assumptions C34_base64_encodes.

(** C34.  Decoding an encoded byte string returns it. *)
Theorem C34_base64_lossless : forall s, b64dec (b64enc s) = Some s.
Proof. exact b64_roundtrip. Qed.
Print Assumptions C34_base64_lossless.

(** C34.  A text without padding is accepted exactly when it is the encoding of
    the result. *)
Theorem C34_base64_canonical : forall t s, ~ In "="%char t -> (b64dec t = Some s <-> is_base64url s t).
Proof. exact b64dec_spec. Qed.
Print Assumptions C34_base64_canonical.

Example C34_case : b64enc (B "did:ex") = B "ZGlkOmV4" /\ b64dec (B "ZGlkOmV4") = Some (B "did:ex")
  /\ b64dec (B "ZGlkOmV4A") = None /\ b64dec (B "-_8") = Some [ascii_of_N 251; ascii_of_N 255]
  /\ b64dec (B "-_9") = None.
Proof. vm_compute. auto. Qed.

(** C35.  Every value of serde_json's range nested at most 127 deep survives
    printing and parsing. *)
Theorem C35_json_lossless : forall fparse v, json_value fparse 127 v ->
  from_json (to_value fparse max_depth) (print v) = Ok v.
Proof. exact json_lossless. Qed.
Print Assumptions C35_json_lossless.

(** C35.  Whatever text was accepted, its value survives another round. *)
Theorem C35_json_reprint : forall fparse s v, floats_stable fparse ->
  from_json (to_value fparse max_depth) s = Ok v -> from_json (to_value fparse max_depth) (print v) = Ok v.
Proof. exact json_lossless_text. Qed.
Print Assumptions C35_json_reprint.

Example C35_case :
  let v := VObj [(B "a", VArr [VNum (PosInt 18446744073709551615); VNum (NegInt 7); VNull]);
                 (B "b""c", VStr [ascii_of_N 10; ascii_of_N 195; ascii_of_N 169])] in
  json_value (fun _ => None) 127 v
  /\ from_json (to_value (fun _ => None) max_depth) (print v) = Ok v
  /\ from_json (to_value (fun _ => None) max_depth) (B " {""b"":[1 , -2],""a"":true,""b"":""é""}")
     = Ok (VObj [(B "a", VBool true); (B "b", VStr [ascii_of_N 195; ascii_of_N 169])]).
Proof.
  split; [|vm_compute; auto].
  apply jv_obj; [constructor; [reflexivity|constructor]|]. intros k x [E|[E|[]]]; injection E as <- <-; (split; [reflexivity|]).
  - constructor. intros x [<-|[<-|[<-|[]]]]; constructor; cbn; lia.
  - now constructor.
Qed.
