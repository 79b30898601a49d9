(** Options objects and arguments given by JavaScript. *)
From Verif.Model Require Import Prelude Utf8 Base64 Json Serde DidDoc Crypto Keys Effects Jws Jwe Message FromPrior Pack Routing Unpack Bindings DocJson.
From Verif.Spec Require Import Codec Small Names Toy World Text Sane Wire Doc Options.
From Verif.Proofs Require Import Lib SealP TextP SaneP WireP ReadP WireU DocP DocE OptionsP.

(** C67.  The options of unpack are read from the members of an object by name, a member
    that is left out has its documented default, and unknown members change nothing. *)
Theorem C67_unpack_options : forall fp l o, json_tree fp 127 (VObj l) -> (js_unpack_options (print (VObj l)) = Ok o <-> unpack_options_read (VObj l) o).
Proof. exact uopts_print. Qed.
Print Assumptions C67_unpack_options.
(** The options of pack_encrypted likewise; the headers are a map, so the order of their
    names is lost. *)
Theorem C67_pack_options_sound : forall fp l o, json_tree fp 127 (VObj l) -> js_pack_options fp (print (VObj l)) = Ok o -> pack_options_read (VObj l) o.
Proof. intros fp l o T H. apply exact_read. now apply (popts_print fp l o T). Qed.
Print Assumptions C67_pack_options_sound.
Theorem C67_pack_options_complete : forall fp l o, json_tree fp 127 (VObj l) -> pack_options_read (VObj l) o ->
  exists o', js_pack_options fp (print (VObj l)) = Ok o' /\ same_pack_options o o'.
Proof. intros fp l o T H. apply read_exact in H as (o' & H & S). exists o'. split; auto. now apply (popts_print fp l o' T). Qed.
Print Assumptions C67_pack_options_complete.
(** Whatever is given, the answer is options or DIDCommMalformed. *)
Theorem C67_malformed : forall fp text,
  (js_unpack_options text = Err Malformed \/ exists o, js_unpack_options text = Ok o)
  /\ (js_pack_options fp text = Err Malformed \/ exists o, js_pack_options fp text = Ok o).
Proof. intros fp text. split; [apply uopts_total|apply popts_total]. Qed.
Print Assumptions C67_malformed.
Definition odd_options : value :=
  VObj [(B "enc_alg_anon", VStr (B "A256gcmEcdhEsA256kw")); (B "unknown", VArr []);
        (B "forward_headers", VObj [(B "a", VNum (PosInt 1)); (B "b", VObj [(B "z", VNull); (B "y", VBool true)]); (B "a", VStr (B "last"))]);
        (B "messaging_service", VNull); (B "protect_sender", VBool true); (B "enc_alg_auth", VObj [(B "A256cbcHs512Ecdh1puA256kw", VNull)])].
Example C67_case : json_tree (fparse toy) 127 odd_options
  /\ js_pack_options (fparse toy) (print odd_options)
     = Ok (mkPO true true (Some [(B "a", VStr (B "last")); (B "b", VObj [(B "y", VBool true); (B "z", VNull)])]) None AuthA256cbcHs512 AnonA256gcm)
  /\ js_unpack_options (B "{""unwrap_re_wrapping_forward"":true,""x"":[]}") = Ok (mkUO false true)
  /\ js_unpack_options (B "{""unwrap_re_wrapping_forward"":1}") = Err Malformed.
Proof. split; [apply treeb_ok; vm_compute; reflexivity|]. repeat split; vm_compute; reflexivity. Qed.

(** C68.  The headers of forwards, given as the TypeScript declarations say, an array of
    pairs, are refused *)
Theorem C68_declared_headers_refuted : exists fp text, text = B "{""forward_headers"":[[""expires"",""tomorrow""]]}" /\ js_pack_options fp text = Err Malformed.
Proof. exists (fparse toy), (B "{""forward_headers"":[[""expires"",""tomorrow""]]}"). split; [reflexivity|]. vm_compute. reflexivity. Qed.
Print Assumptions C68_declared_headers_refuted.
(** whatever they are (and even if there are none), *)
Theorem C68_pairs_refused : forall fp l vs, json_tree fp 127 (VObj l) -> In (B "forward_headers", VArr vs) l -> js_pack_options fp (print (VObj l)) = Err Malformed.
Proof.
  intros fp l vs T I. destruct (popts_total fp (print (VObj l))) as [E|(o & E)]; auto. exfalso.
  apply (popts_print fp l o T) in E as (_ & _ & H & _).
  assert (X : forall w, present 0 (VObj l) 0 "forward_headers" w -> w = VArr vs).
  { intros w [(l' & E & O)|(l' & E & _)]; [|discriminate]. injection E as <-. destruct O as (l1 & l2 & E & N1 & N2). rewrite E in I.
    apply in_app_or in I as [I|[I|I]].
    - exfalso. apply N1. now apply (in_map fst) in I.
    - now injection I as ->.
    - exfalso. apply N2. now apply (in_map fst) in I. }
  destruct (po_forward_headers o) as [h|].
  - destruct H as (w & P & _ & l' & E & _). apply X in P. congruence.
  - destruct H as [(l' & E & N)|P].
    + injection E as <-. apply N. now apply (in_map fst) in I.
    + apply X in P. discriminate.
Qed.
Print Assumptions C68_pairs_refused.
(** C68.  Missing: that form.  Headers given as an object are taken. *)
Theorem C68_object_headers_partial : forall fp l h o, json_tree fp 127 (VObj l) -> js_pack_options fp (print (VObj l)) = Ok o ->
  one l (B "forward_headers") h -> h <> VNull -> exists hs, po_forward_headers o = Some hs /\ headers_read h hs.
Proof.
  intros fp l h o T H O N. apply (popts_print fp l o T) in H. apply exact_read in H as (_ & _ & H & _).
  assert (X : forall w, present 0 (VObj l) 0 "forward_headers" w -> w = h).
  { intros w [(l' & E & O')|(l' & E & _)]; [|discriminate]. injection E as <-. eapply one_fun; eauto. }
  destruct (po_forward_headers o) as [hs|].
  - exists hs. split; auto. destruct H as (w & P & _ & R). apply X in P. now subst w.
  - exfalso. destruct H as [(l' & E & NO)|P].
    + injection E as <-. apply NO. destruct O as (l1 & l2 & -> & _). rewrite map_app. apply in_or_app. right. now left.
    + apply X in P. congruence.
Qed.
Print Assumptions C68_object_headers_partial.
Example C68_case : exists l h, odd_options = VObj l /\ one l (B "forward_headers") h /\ h <> VNull.
Proof.
  match eval cbv [odd_options] in odd_options with VObj (?a :: ?b :: (?k, ?v) :: ?l) => exists (a :: b :: (k, v) :: l), v; split; [reflexivity|split; [exists [a; b], l|discriminate]] end.
  split; [reflexivity|]. split; cbn [map fst]; intros I; repeat destruct I as [I|I]; try (vm_compute in I; discriminate); destruct I.
Qed.

(** C69.  wrap_in_forward called from JavaScript: headers, routing keys and algorithm are
    read, and then the library wraps with what was read; if any of them cannot be read,
    the error is DIDCommMalformed and no resolver is asked. *)
Theorem C69_wrap_in_forward : forall C msg vh to vk va tr x, json_tree (fparse C) 127 vh -> json_tree (fparse C) 127 vk -> json_tree (fparse C) 127 va ->
  exec (js_wrap_in_forward C msg (print vh) to (print vk) (print va)) tr x ->
  (exists h ks a, headers_read vh h /\ vk = VArr (map VStr ks) /\ unit_read anon_names va a /\ exec (wrap_in_forward C msg (Some h) to ks a) tr x)
  \/ (~ (exists h ks a, headers_read vh h /\ vk = VArr (map VStr ks) /\ unit_read anon_names va a) /\ tr = [] /\ x = Err Malformed).
Proof. exact wrap_read. Qed.
Print Assumptions C69_wrap_in_forward.
Definition js_wrapped (h ks alg : bytes) : res bytes :=
  run (toy_env toy_docs []) (js_wrap_in_forward toy (B "{""a"":1}") h (B "did:ex:bob") ks alg).
Example C69_case :
  js_wrapped (B "{""x"":1}") (B "[""did:ex:med2#x""]") (B """A256gcmEcdhEsA256kw""")
    = run (toy_env toy_docs []) (wrap_in_forward toy (B "{""a"":1}") (Some [(B "x", VNum (PosInt 1))]) (B "did:ex:bob") [B "did:ex:med2#x"] AnonA256gcm)
  /\ (exists t, js_wrapped (B "{""x"":1}") (B "[""did:ex:med2#x""]") (B """A256gcmEcdhEsA256kw""") = Ok t)
  /\ js_wrapped (B "null") (B "[""did:ex:med2#x""]") (B """A256gcmEcdhEsA256kw""") = Err Malformed
  /\ js_wrapped (B "{}") (B "[1]") (B """A256gcmEcdhEsA256kw""") = Err Malformed
  /\ js_wrapped (B "{}") (B "[""did:ex:med2#x""]") (B """A256GCM""") = Err Malformed.
Proof. split; [vm_compute; reflexivity|]. split; [eexists; vm_compute; reflexivity|]. repeat split; vm_compute; reflexivity. Qed.
