(** How many questions an operation puts to the resolvers. *)
From Verif.Model Require Import Prelude Utf8 Json DidDoc Crypto Effects Routing.
From Verif.Spec Require Import Small Events.

(** The calls of DIDResolver::resolve, SecretsResolver::find_secrets and get_secret. *)
Definition is_question (e : event) : Prop := match e with Ev (ORandom _) _ => False | _ => True end.
Inductive questions : list event -> nat -> Prop :=
| questions_none : questions [] 0
| questions_more e tr n : is_question e -> questions tr n -> questions (e :: tr) (S n)
| questions_draw e tr n : ~ is_question e -> questions tr n -> questions (e :: tr) n.

(** find_secrets never answers with more keys than it was asked about. *)
Definition finds_asked (e : event) : Prop :=
  match e with
  | Ev (OFindSecrets ids) r => match r with Ok found => List.length found <= List.length ids | _ => True end
  | _ => True
  end.

(** No messaging service of the documents told has more than [n] routing keys. *)
Definition routes_within (n : nat) (tr : list event) : Prop :=
  forall did doc s ms, resolved tr did doc -> In s (doc_service doc) -> svc_kind s = DIDCommMessaging ms ->
    List.length (ms_routing_keys ms) <= n.
