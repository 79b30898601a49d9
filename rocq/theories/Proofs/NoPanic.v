(** No operation panics, when resolvers do not and Ed25519 secrets are long enough. *)
From Verif.Model Require Import Prelude Utf8 Base64 Json Serde Base58 DidDoc Crypto Keys Effects Jws Jwe Message FromPrior Pack Routing Unpack.
From Verif.Spec Require Import Small Events Panics.
From Verif.Proofs Require Import Lib Errs.

(** [m] ends in [Q] whenever the answers satisfy [A]. *)
Fixpoint safe {X} (A : event -> Prop) (m : prog X) (Q : X -> Prop) : Prop :=
  match m with
  | Ret x => Q x
  | Do o k => forall r, A (Ev o r) -> safe A (k r) Q
  end.
Lemma safe_exec {X} A (m : prog X) Q tr x : safe A m Q -> exec m tr x -> Forall A tr -> Q x.
Proof.
  revert tr; induction m as [y|o k IH]; intros tr S E F; cbn in *.
  - destruct E as [-> ->]. exact S.
  - destruct E as (r & tr' & -> & E). inversion F; subst. eauto.
Qed.
Lemma safe_bind {X Y} A (m : prog X) (f : X -> prog Y) Q R :
  safe A m R -> (forall x, R x -> safe A (f x) Q) -> safe A (bind m f) Q.
Proof. induction m as [y|o k IH]; cbn; auto. Qed.

Definition np {X} (r : res X) : Prop := r <> Panic.
Lemma np_errs {X} K (r : res X) : errs K r -> np r.
Proof. destruct r; cbn; try easy. Qed.
Lemma np_ok_or {X} k (o : option X) : np (ok_or k o). Proof. destruct o; easy. Qed.
Lemma np_kind {X} k (r : res X) : np r -> np (kind k r). Proof. destruct r; easy. Qed.
Lemma np_bind {X Y} (r : res X) (f : X -> res Y) : np r -> (forall a, r = Ok a -> np (f a)) -> np (rbind r f).
Proof. destruct r; cbn; try easy. auto. Qed.
Lemma np_soft {X} (r : res X) : np r -> np (soft r). Proof. destruct r as [|[]|]; easy. Qed.
Lemma np_rmap {X Y} (f : X -> res Y) l : (forall x, np (f x)) -> np (rmap f l).
Proof. intros H. induction l; cbn; [easy|]. apply np_bind; auto. intros. apply np_bind; auto. easy. Qed.
Lemma safe_pbind {X Y} A (m : prog (res X)) (f : X -> prog (res Y)) :
  safe A m np -> (forall a, safe A (f a) np) -> safe A (pbind m f) np.
Proof. intros M F. eapply safe_bind; eauto. intros [a|e|] N; cbn; auto; easy. Qed.
Lemma safe_ret_bind {X Y} A (r : res X) (f : X -> prog (res Y)) :
  np r -> (forall a, r = Ok a -> safe A (f a) np) -> safe A (pbind (Ret r) f) np.
Proof. intros N F. destruct r; cbn; auto; easy. Qed.

Section NoPanic.
Context (C : crypto).

(** ** Keys *)
Lemma np_jwk_key a v : np (jwk_key C a v).
Proof. unfold jwk_key. apply np_bind; [apply np_ok_or|easy]. Qed.
Lemma codec_len v c : codec_by_prefix v = Ok c -> List.length (write_varint v) = 2 /\ (128 <= v)%N.
Proof.
  unfold codec_by_prefix. repeat match goal with |- context [N.eqb v ?x] => destruct (N.eqb_spec v x); [subst; intros _; split; [reflexivity|easy]|] end. discriminate.
Qed.
Lemma read_varint_len s v : read_varint s = Some v -> (128 <= v)%N -> 2 <= List.length s.
Proof.
  unfold read_varint. destruct s as [|a [|b t]]; cbn [varint_dec List.length]; try lia; [discriminate|].
  destruct (N.ltb_spec (N_of_ascii a) 128); [|discriminate]. intros E; injection E as <-. lia.
Qed.
Lemma from_multicodec_np v : np (from_multicodec v).
Proof.
  unfold from_multicodec. apply np_bind; [apply np_ok_or|]. intros p E. apply ok_or_Ok in E.
  apply np_bind; [unfold codec_by_prefix; repeat destruct (N.eqb _ _); easy|]. intros c Ec.
  apply codec_len in Ec as [L H]. rewrite L. apply (read_varint_len _ _ E) in H. unfold split_at.
  destruct (Nat.leb_spec 2 (List.length v)); [|lia]. easy.
Qed.
Lemma from_multicodec_len v c r : from_multicodec v = Ok (c, r) -> List.length v = 2 + List.length r.
Proof.
  unfold from_multicodec. destruct (read_varint v) as [p|]; cbn [rbind ok_or]; [|discriminate].
  destruct (codec_by_prefix p) as [c'| |] eqn:Ec; cbn [rbind]; try discriminate. apply codec_len in Ec as [L _]. rewrite L.
  unfold split_at. destruct (Nat.leb_spec 2 (List.length v)); cbn [rbind]; [|discriminate]. intros E; injection E as <- <-.
  destruct v as [|a [|b v]]; cbn in *; try lia. 
Qed.
Lemma multibase_np want v : np (multibase_key want v).
Proof.
  unfold multibase_key. destruct v as [|c t]; [easy|]. destruct (Ascii.eqb c "z"); [|easy].
  apply np_bind; [apply np_ok_or|]. intros d _. apply np_bind; [apply from_multicodec_np|]. intros [cd r] _. destruct (codec_eqb cd want); easy.
Qed.
Lemma varint_starts k : forall s n, varint_dec k s = Some n <-> starts_with_varint k s n.
Proof.
  induction k as [|k IH]; intros s n; [split; [discriminate|inversion 1]|]. cbn [varint_dec]. destruct s as [|c s]; [split; [discriminate|inversion 1]|].
  destruct (N.ltb_spec (N_of_ascii c) 128) as [L|L].
  - split; [intros E; injection E as <-; now constructor|]. inversion 1; subst; [reflexivity|lia].
  - split.
    + destruct (varint_dec k s) as [m|] eqn:E; [|discriminate]. intros Q. injection Q as <-. constructor; auto. now apply IH.
    + inversion 1 as [|? ? ? m ? R]; subst; [lia|]. apply IH in R. rewrite R. reflexivity.
Qed.
Lemma codec_number p c : codec_by_prefix p = Ok c ->
  p = match c with CX25519Pub => 0xEC | CEd25519Pub => 0xED | CX25519Priv => 0x1302 | CEd25519Priv => 0x1300 end%N.
Proof.
  unfold codec_by_prefix.
  repeat match goal with |- context [N.eqb ?a ?b] => destruct (N.eqb_spec a b); [intros E; injection E as <-; assumption|] end. discriminate.
Qed.
Lemma multibase_len want v r : multibase_key want v = Ok r -> exists t d, v = "z"%char :: t /\ b58dec t = Some d
  /\ (want = CEd25519Priv -> starts_with_varint 5 d 0x1300) /\ List.length d = 2 + List.length r.
Proof.
  unfold multibase_key. destruct v as [|c t]; [discriminate|]. destruct (Ascii.eqb_spec c "z") as [->|]; [|discriminate].
  destruct (b58dec t) as [d|] eqn:D; cbn [rbind ok_or]; [|discriminate]. destruct (from_multicodec d) as [[cd r']| |] eqn:E; cbn [rbind]; try discriminate.
  destruct (codec_eqb cd want) eqn:W; [|discriminate]. intros H; injection H as <-. pose proof E as E'. apply from_multicodec_len in E.
  exists t, d. repeat (split; auto). intros ->. destruct cd; try discriminate W. unfold from_multicodec in E'.
  destruct (read_varint d) as [p|] eqn:R; cbn [rbind ok_or] in E'; [|discriminate]. destruct (codec_by_prefix p) as [c'| |] eqn:Ec; cbn [rbind] in E'; try discriminate.
  destruct (split_at _ d) as [[x y]| |]; cbn [rbind] in E'; try discriminate. injection E' as -> ->.
  apply codec_number in Ec. subst p. apply varint_starts. exact R.
Qed.
Lemma vm_key_np vm : np (vm_key_pair C vm).
Proof.
  unfold vm_key_pair. destruct (vm_type vm), (vm_material vm); try easy.
  - destruct (jwk_alg v); try easy; apply np_jwk_key.
  - apply np_bind; [apply np_ok_or|]. intros. apply np_jwk_key.
  - apply np_bind; [apply np_ok_or|]. intros. apply np_jwk_key.
  - apply np_bind; [apply multibase_np|]. intros. apply np_jwk_key.
  - apply np_bind; [apply multibase_np|]. intros. apply np_jwk_key.
Qed.
Lemma x25519_np d : np (x25519_secret_key C d).
Proof. unfold x25519_secret_key. apply np_bind; [apply np_ok_or|]. intros. apply np_jwk_key. Qed.
Lemma ed25519_np d : 32 <= List.length d -> np (ed25519_secret_key C d).
Proof.
  intros L. unfold ed25519_secret_key. apply np_bind.
  - unfold split_at. apply Nat.leb_le in L. rewrite L. easy.
  - intros [? ?] _. apply np_jwk_key.
Qed.
Lemma sec_key_np s : long_enough s -> np (sec_key_pair C s).
Proof.
  unfold long_enough, sec_key_pair. destruct (sec_type s), (sec_material s); try easy; intros L.
  - destruct (jwk_alg v); try easy; apply np_jwk_key.
  - apply np_bind; [apply np_ok_or|]. intros. apply x25519_np.
  - apply np_bind; [apply np_ok_or|]. intros d E. apply ok_or_Ok in E. apply ed25519_np; auto.
  - apply np_bind; [apply multibase_np|]. intros. apply x25519_np.
  - apply np_bind; [apply multibase_np|]. intros r E. apply multibase_len in E as (t & d & -> & D & V & Ln). apply ed25519_np. specialize (L t d eq_refl D (V eq_refl)). lia.
Qed.
Lemma as_alg_np a alg kp : np kp -> np (as_alg C a alg kp).
Proof. intros N. unfold as_alg. destruct (kalg_eqb alg a); [|easy]. apply np_bind; auto. intros [a' k] _. destruct (kalg_eqb a' a); easy. Qed.
Lemma vm_as_np a vm : np (vm_as C a vm). Proof. apply as_alg_np, vm_key_np. Qed.
Lemma sec_as_np a s : long_enough s -> np (sec_as C a s). Proof. intros. now apply as_alg_np, sec_key_np. Qed.

(** ** Pure steps *)
Lemma jwe_parse_np j : np (jwe_parse C j).
Proof.
  unfold jwe_parse. apply np_bind; [apply np_ok_or|]. intros. apply np_bind; [eapply np_errs, jwe_header_errs|]. intros h _.
  apply np_bind; [apply np_ok_or|]. intros. apply np_bind; [|easy]. destruct (ph_apu h); [|easy]. apply np_bind; [apply np_ok_or|easy].
Qed.
Lemma verify_didcomm_np p : np (verify_didcomm C p).
Proof. unfold verify_didcomm. repeat match goal with |- context [if ?x then _ else _] => destruct x | |- np (match ?x with _ => _ end) => destruct x end; easy. Qed.
Lemma check_recipients_np k : np (check_recipients k).
Proof. unfold check_recipients. destruct k; [easy|]. destruct (existsb _ _); easy. Qed.
Lemma jws_parse_np j : np (jws_parse j).
Proof. unfold jws_parse. apply np_bind; [|easy]. apply np_rmap. intros. unfold parse_jws_header. apply np_bind; [apply np_ok_or|]. intros. eapply np_errs, jws_header_errs. Qed.
Lemma derive_np d ka e s r a u v t b : np (derive_key C d ka e s r a u v t b).
Proof. unfold derive_key. destruct d; [apply np_ok_or|]. destruct s; [apply np_ok_or|easy]. Qed.
Lemma jwe_decrypt_np ce d ka p s kid k : np (jwe_decrypt C ce d ka p s kid k).
Proof.
  unfold jwe_decrypt. destruct (negb _); [easy|]. repeat (apply np_bind; [first [apply np_ok_or|apply derive_np]|intros ? _]). apply np_ok_or.
Qed.
Lemma anon_open_np p kid ka k : np (anon_open C p kid ka k).
Proof. unfold anon_open. destruct ka; try easy; (apply np_bind; [unfold anon_cenc; destruct (ph_enc _); easy|]; intros [ce alg] _; apply np_bind; [apply jwe_decrypt_np|easy]). Qed.
Lemma auth_open_np p f fk kid ka k : np (auth_open C p f fk kid ka k).
Proof. unfold auth_open. destruct (fst fk), ka, (ph_enc (pj_protected p)); try easy; apply jwe_decrypt_np. Qed.
Lemma parse_compact_np s : np (parse_compact s).
Proof.
  unfold parse_compact. destruct (split "." s) as [|a [|b [|c [|]]]]; try easy. apply np_bind; [apply np_ok_or|]. intros.
  apply np_bind; [|easy]. apply np_kind. eapply np_errs, compact_header_errs.
Qed.
Lemma find_sig_np kid l : forall hs, np (find_sig kid l hs).
Proof. induction l; intros; cbn; [easy|]. destruct (beq _ _); [easy|auto]. Qed.
Lemma sig_type_np a : np (sig_type a). Proof. destruct a; easy. Qed.
Lemma jws_verify_np pj kid ka k : np (jws_verify C pj kid ka k).
Proof.
  unfold jws_verify. destruct pj. apply np_bind; [apply find_sig_np|]. intros [sg h] _. apply np_bind; [apply np_ok_or|]. intros.
  apply np_bind; [apply sig_type_np|]. intros. apply np_bind; [apply np_ok_or|]. intros. apply np_ok_or.
Qed.
Lemma compact_verify_np pc ka k : np (compact_verify C pc ka k).
Proof. unfold compact_verify. apply np_bind; [apply sig_type_np|]. intros. apply np_bind; [apply np_ok_or|]. intros. apply np_ok_or. Qed.
Lemma jws_sign_np p kid ka k a : np (jws_sign C p kid ka k a).
Proof. unfold jws_sign. apply np_bind; [apply sig_type_np|]. intros. apply np_bind; [apply np_ok_or|easy]. Qed.
Lemma jws_sign_compact_np p kid ka k t a : np (jws_sign_compact C p kid ka k t a).
Proof. unfold jws_sign_compact. apply np_bind; [apply sig_type_np|]. intros. apply np_bind; [apply np_ok_or|easy]. Qed.
Lemma sign_alg_of_np a : np (sign_alg_of a). Proof. destruct a; easy. Qed.
Lemma verify_alg_of_np a : np (verify_alg_of a). Proof. destruct a; easy. Qed.
Lemma sign_alg_md_np a : np (sign_alg_md a). Proof. destruct a; easy. Qed.
Lemma validate_pack_np p k : np (validate_pack p k).
Proof. unfold validate_pack. repeat match goal with |- context [if ?x then _ else _] => destruct x | |- np (match ?x with _ => _ end) => destruct x end; easy. Qed.
Lemma validate_pp_np m fp : np (validate_pack_plaintext m fp).
Proof. unfold validate_pack_plaintext. destruct fp as [[p k]|]; [|easy]. apply np_bind; [apply validate_pack_np|]. intros. destruct (msg_from m); [|easy]. destruct (negb _); easy. Qed.
Lemma validate_pe_np m t f s : np (validate_pack_encrypted m t f s).
Proof. unfold validate_pack_encrypted. repeat match goal with |- np (if ?x then _ else _) => destruct x end; easy. Qed.
Lemma msg_validate_np m : np (msg_validate m).
Proof. unfold msg_validate. destruct (negb _); easy. Qed.
Lemma wrap_one_np d ka e s a u v t cek r : np (wrap_one C d ka e s a u v t cek r).
Proof. unfold wrap_one. apply np_bind; [apply derive_np|]. intros. apply np_bind; [apply np_ok_or|easy]. Qed.
Lemma vm_recipient_np a vm : np (vm_recipient C a vm).
Proof. unfold vm_recipient. apply np_bind; [apply vm_as_np|easy]. Qed.
Lemma to_value_np fp d s : np (from_json (to_value fp d) s).
Proof. eapply np_errs, from_json_errs. intros. eapply errs_value; [exact jm|exact jkind_ok|eassumption]. Qed.

Hint Resolve vm_key_np vm_as_np jwe_parse_np verify_didcomm_np check_recipients_np jws_parse_np anon_open_np auth_open_np
  parse_compact_np jws_verify_np compact_verify_np jws_sign_np jws_sign_compact_np sign_alg_of_np verify_alg_of_np sign_alg_md_np
  validate_pack_np validate_pp_np validate_pe_np msg_validate_np wrap_one_np vm_recipient_np to_value_np sec_key_np sec_as_np : np.

Ltac ins := repeat lazymatch goal with |- forall _, _ => intro end.
Ltac npt := ins; first
  [ apply np_ok_or | easy | solve [auto with np]
  | apply np_soft; eapply np_errs; first [apply jwe_str_errs|apply jws_str_errs|apply msg_str_errs]
  | apply np_kind; first [apply to_value_np|eapply np_errs, from_prior_errs]
  | apply np_rmap; ins; first [apply np_ok_or|solve [auto with np]] ].
Ltac go := repeat (ins; cbv beta zeta; lazymatch goal with
  | |- safe _ (pbind (Ret _) _) _ => apply safe_ret_bind; [try npt|]
  | |- safe _ (pbind (resolve _) _) _ => apply safe_pbind; [let r := fresh in let H := fresh in intros r H; exact H|]
  | |- safe _ (pbind (find_secrets _) _) _ => apply safe_pbind; [let r := fresh in let H := fresh in intros r H; exact H|]
  | |- safe _ (pbind (random _) _) _ => apply safe_pbind; [let r := fresh in let H := fresh in intros r H; easy|]
  | |- safe _ (pbind (pkind _ (resolve _)) _) _ => apply safe_pbind; [let r := fresh in let H := fresh in intros r H; apply np_kind; exact H|]
  | |- safe _ (pbind (get_secret _) _) _ => fail
  | |- safe _ (pbind _ _) _ => apply safe_pbind; auto
  | |- safe _ (Ret _) _ => cbn [safe]; try npt
  | |- safe _ (if ?c then _ else _) _ => destruct c
  | |- safe _ (match ?x with _ => _ end) _ => destruct x
  | |- safe _ _ _ => progress auto
  end).

(** A secret fetched and unwrapped. *)
Lemma safe_secret {X} k id (f : secret -> prog (res X)) : (forall s, long_enough s -> safe calm (f s) np) ->
  safe calm (pbind (get_secret id) (fun sec => pbind (Ret (ok_or k sec)) f)) np.
Proof.
  intros F. unfold get_secret. cbn [pbind bind safe]. intros r [N L]. destruct r as [[s|]|e|]; cbn; try easy. apply F, L. reflexivity.
Qed.

Lemma open_loop_safe {X} all (open : bytes -> kalg -> key C -> res X) found : (forall a b c, np (open a b c)) ->
  forall last, safe calm (open_loop C all open found last) np.
Proof.
  intros O. induction found as [|kid found IH]; intros last; cbn [open_loop]; [npt|].
  ins; cbv beta zeta; apply safe_secret. intros s L. apply safe_ret_bind; [now apply sec_key_np|]. intros [ka k] _. apply safe_ret_bind; auto. intros.
  destruct all; [apply IH|easy].
Qed.
Lemma anon_safe t o md : safe calm (try_anoncrypt C t o md) np.
Proof. unfold try_anoncrypt. go. apply open_loop_safe. auto with np. Qed.
Lemma auth_safe t o md : safe calm (try_authcrypt C t o md) np.
Proof. unfold try_authcrypt. go. apply open_loop_safe. auto with np. Qed.
Lemma sign_safe t md : safe calm (try_sign C t md) np.
Proof. unfold try_sign. go. Qed.
Lemma prior_safe jwt : safe calm (from_prior_unpack C jwt) np.
Proof. unfold from_prior_unpack. go. Qed.
Lemma plain_safe t md : safe calm (try_plaintext C t md) np.
Proof. pose proof prior_safe. unfold try_plaintext. go. Qed.
Lemma unwrap_safe t : safe calm (try_unwrap C t) np.
Proof. unfold try_unwrap, has_secret. go. Qed.
Lemma rest_safe t o md : safe calm (unpack_rest C t o md) np.
Proof. pose proof auth_safe. pose proof sign_safe. pose proof plain_safe. unfold unpack_rest. go. Qed.
Lemma loop_safe fuel : forall t o md, safe calm (unpack_loop C fuel t o md) (fun x => x <> Some Panic).
Proof.
  assert (G : forall t o md, safe calm (bind (unpack_rest C t o md) (fun x => Ret (Some x))) (fun x => x <> Some Panic)).
  { intros. eapply safe_bind; [apply rest_safe|]. intros x N. cbn. intros E. injection E as ->. now apply N. }
  induction fuel as [|f IH]; intros t o md; cbn [unpack_loop]; [easy|].
  eapply safe_bind; [apply anon_safe|]. intros [[[pt md']|]|k|] N; [|apply G|discriminate|now destruct N]. destruct (uo_unwrap o); [|apply G].
  eapply safe_bind; [apply unwrap_safe|]. intros [[t'|]|k|] N'; [apply IH|apply G|discriminate|now destruct N'].
Qed.

Lemma jwe_encrypt_safe ce d ka pt a e s rs : safe calm (jwe_encrypt C ce d ka pt a e s rs) np.
Proof. unfold jwe_encrypt. go. Qed.
Lemma anon_encrypt_safe ka a m rs : safe calm (anon_encrypt C ka a m rs) np.
Proof. destruct a; apply jwe_encrypt_safe. Qed.
Lemma anoncrypt_safe to m a : safe calm (anoncrypt C to m a) np.
Proof. pose proof anon_encrypt_safe. unfold anoncrypt. destruct (did_or_url to). go; unfold find_vm; npt. Qed.
Lemma auth_encrypt_safe ka au an p m fk fs ts : long_enough fs -> safe calm (auth_encrypt C ka au an p m fk fs ts) np.
Proof. intros. pose proof anon_encrypt_safe. pose proof jwe_encrypt_safe. unfold auth_encrypt. go; auto. Qed.
Lemma authcrypt_safe to f m au an p : safe calm (authcrypt C to f m au an p) np.
Proof.
  unfold authcrypt. destruct (did_or_url to), (did_or_url f). go; try (unfold find_vm; npt; fail).
  ins; cbv beta zeta; apply safe_secret. intros s L. pose proof (fun ka au an p m fk ts => auth_encrypt_safe ka au an p m fk s ts L). go.
Qed.
Lemma pack_plaintext_safe m : safe calm (pack_plaintext C m) np.
Proof. pose proof prior_safe. unfold pack_plaintext. go. Qed.
Lemma pack_signed_safe m s : safe calm (pack_signed C m s) np.
Proof.
  pose proof pack_plaintext_safe. unfold pack_signed. destruct (did_or_url s) as [did key]. go.
  - destruct key; [|easy]. apply np_bind; [apply np_ok_or|easy].
  - ins; cbv beta zeta; apply safe_secret. intros sec L. pose proof (sec_key_np sec L). go.
Qed.
Lemma from_prior_pack_safe p k : safe calm (from_prior_pack C p k) np.
Proof.
  unfold from_prior_pack. go.
  - destruct k; [|easy]. destruct (did_or_url _). apply np_bind; [apply np_ok_or|]. intros. destruct (negb _); [easy|]. apply np_bind; [apply np_ok_or|easy].
  - ins; cbv beta zeta; apply safe_secret. intros sec L. pose proof (sec_key_np sec L). go.
Qed.
Lemma build_forward_safe f n h : safe calm (build_forward C f n h) np.
Proof. unfold build_forward. go. Qed.
Lemma wrap_loop_safe hops : forall m h a, safe calm (wrap_loop C m h hops a) np.
Proof.
  induction hops as [|[to next] hops IH]; intros m h a; cbn [wrap_loop]; [easy|].
  pose proof build_forward_safe. pose proof anoncrypt_safe. go.
Qed.
Lemma wrap_in_forward_safe m h to keys a : keys <> [] -> safe calm (wrap_in_forward C m h to keys a) np.
Proof. intros N. unfold wrap_in_forward. destruct keys; [easy|]. apply wrap_loop_safe. Qed.
Lemma find_service_safe did sid : safe calm (find_service did sid) np.
Proof. unfold find_service. go. Qed.
Lemma chain_loop_safe fuel : forall l cur, safe calm (chain_loop fuel l cur) np.
Proof.
  pose proof find_service_safe. induction fuel as [|f IH]; intros l cur; cbn [chain_loop]; destruct (is_did _); try easy; destruct (Nat.ltb _ _); try easy. go.
Qed.
Lemma services_chain_safe to sid : safe calm (services_chain to sid) np.
Proof. pose proof find_service_safe. pose proof (chain_loop_safe 2). unfold services_chain. destruct (did_or_url to). go; auto. Qed.
Lemma wrap_if_needed_safe m to o : safe calm (wrap_if_needed C m to o) np.
Proof.
  unfold wrap_if_needed. destruct (negb _); [easy|]. apply safe_pbind; [apply services_chain_safe|]. intros [|s l]; [easy|].
  cbv zeta. destruct (_ ++ _) eqn:E; [easy|]. apply safe_pbind; [now apply wrap_in_forward_safe|easy].
Qed.
Lemma pack_encrypted_safe m to f s o : safe calm (pack_encrypted C m to f s o) np.
Proof.
  pose proof pack_signed_safe. pose proof pack_plaintext_safe. pose proof authcrypt_safe. pose proof anoncrypt_safe. pose proof wrap_if_needed_safe.
  unfold pack_encrypted. go.
Qed.
End NoPanic.
