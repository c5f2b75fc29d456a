(** Order of members (C57), and which parts of a recipient entry count (C58). *)

From Coq Require Import Ascii String Arith NArith List Bool Permutation Lia.
From Verif Require Import Bytes BytesFacts Base64 Base64Facts Utf8 Json JsonFacts SpecJson GrammarFacts Value ValueFacts Types Serde SerdeFacts Message ChaCha Attach Envelope Spec SpecFacts
  SpecText SpecKey SpecDecode CryptoLaws Examples BodyFacts PlainFacts PlainFacts2 SpecSeal SealFacts SealFacts2 SealFacts3 PropSeal KeyFacts PropKey
  ReadFacts ReadFacts2 ReadFacts3 OrderFacts OrderFacts2.
Import ListNotations.
Local Open Scope string_scope.

(** ** C57 *)

(** Texts whose documents differ only in layout and in the order of members are read as the same message. *)
Theorem C57_message : forall E k text text' j j' m, env_ok E -> document text j -> document text' j' -> ordinary_body j -> reordered j j' ->
  message_from_str (rt E k) text = Some m -> exists m', message_from_str (rt E k) text' = Some m' /\ same_message m m'.
Proof. intros E k text text' j j' m HE HD HD'. apply document_iff in HD, HD'. intros HO HR. apply (message_ro (rt E k) text text' j j'); [now apply env_drt|exact HD|exact HD'|now apply ordinary_bodies|exact HR]. Qed.
(** Received texts of any kind, with any keys: the same message, the same error, or a panic in both cases. *)
Theorem C57_receive : forall E text text' j j' sk pk spk, env_ok E -> rust_string text -> rust_string text' -> document text j -> document text' j' -> ordinary_body j -> reordered j j' ->
  same_result same_message (receive E text sk pk spk) (receive E text' sk pk spk).
Proof. intros E text text' j j' sk pk spk HE HU HU' HD HD' HO HR. apply document_iff in HD, HD'. pose proof (ordinary_bodies _ _ HO HR). eapply receive_ro; eauto. Qed.
(** For envelopes the result is the same to the last detail, as the message comes out of the payload. *)
Theorem C57_envelope : forall E text text' j j' sk pk spk, env_ok E -> rust_string text -> rust_string text' -> document text j -> document text' j' -> ordinary_body j -> reordered j j' ->
  get_message_type (rt E 0) text = Ok DidCommJwe \/ get_message_type (rt E 0) text = Ok DidCommJws ->
  receive E text sk pk spk = receive E text' sk pk spk.
Proof.
  intros E text text' j j' sk pk spk HE HU HU' HD HD' HO HR HT. apply document_iff in HD, HD'. apply (fun H => ordinary_bodies _ _ H HR) in HO.
  pose proof (classify_ro (rt E 0) text text' j j' (env_drt E 0 HE) HD HD' HO HR) as C0. unfold receive. rewrite <- C0.
  destruct HT as [HT|HT]; rewrite HT; cbn [rbind is_jwe_type].
  - destruct (oerr sk _) as [k| |]; cbn [rbind]; [|reflexivity|reflexivity]. now rewrite (receive_jwe_ro E text text' j j' k pk HE HD HD' HU HU' HR).
  - rewrite <- (classify_ro (rt E 4) text text' j j' (env_drt E 4 HE) HD HD' HO HR). destruct (get_message_type (rt E 4) text) as [t4| |] eqn:E4; cbn [rbind]; [|reflexivity|reflexivity].
    rewrite (classify_stable _ _ _ _ _ _ E4 HT). cbn [is_jws_type rbind]. now rewrite (receive_jws_ro E text text' j j' spk HE HD HD' HU HU' HO HR).
Qed.
(** The relation: an object with distinct names and a rearrangement of it, at any depth. *)
Theorem C57_reordered : (forall es es', unique_keys es -> Permutation es es' -> reordered (JObj es) (JObj es')) /\
  (forall j j', reordered j j' -> reordered j' j) /\ (forall a b c, reordered a b -> reordered b c -> reordered a c).
Proof.
  split; [|split; [exact reordered_sym|]].
  - intros es es' HU HP. eapply ro_obj; [exact HU|exact HP|]. clear. induction es' as [|x l IH]; constructor; [split; [reflexivity|constructor]|exact IH].
  - exact reordered_trans.
Qed.

Definition ex_plain1 : string :=
  "{""id"":""1"",""type"":""t"",""typ"":""application/didcomm-plain+json"",""to"":[""x""],""body"":{""b"":1,""a"":{""c"":2,""d"":3}},""k"":""v""}".
Definition ex_plain2 : string :=
  "{ ""k"":""v"", ""body"":{""a"":{""d"":3,""c"":2},""b"":1},""to"":[""x""],""type"":""t"",""id"":""1"",""typ"":""application/didcomm-plain+json""}".
Ltac uniq := repeat constructor; cbn; intuition discriminate.
Example C57_example : exists j j', document ex_plain1 j /\ document ex_plain2 j' /\ j <> j' /\ ordinary_body j /\ reordered j j' /\ (exists m, receive toy ex_plain1 None None None = Ok m).
Proof.
  eexists _, _. split; [apply document_iff; vm_compute; reflexivity|]. split; [apply document_iff; vm_compute; reflexivity|]. split; [discriminate|]. split.
  { intros es x E H. injection E as <-. cbn in H. repeat (destruct H as [H|H]; [try discriminate H; injection H as <-; ordinary_val|]). destruct H. }
  split.
  - eapply ro_obj; [uniq| |].
    + match goal with |- Permutation [?id; ?ty; ?tp; ?to; ?b; ?k] _ =>
        apply (perm_trans (l' := [k; b; to; ty; id; tp])); [|apply Permutation_refl] end.
      apply NoDup_Permutation_bis; [repeat (constructor; [cbn; intuition discriminate|]); constructor|cbn; lia|intros x Hx; cbn in *; tauto].
    + repeat (constructor; [split; [reflexivity|]|]); try constructor; try (apply ro_same).
      eapply ro_obj; [uniq|apply perm_swap|]. repeat (constructor; [split; [reflexivity|]|]); try constructor; try (apply ro_same).
      eapply ro_obj; [uniq|apply perm_swap|]. repeat (constructor; [split; [reflexivity|apply ro_same]|]). constructor.
  - eexists. vm_compute. reflexivity.
Qed.
(** With two members of the same name in a body the order counts. *)
Example C57_repeated_names :
  (exists m, message_from_str (rt toy 0) "{""id"":""1"",""type"":""t"",""typ"":""application/didcomm-plain+json"",""to"":[""x""],""body"":{""a"":1,""a"":2}}" = Some m /\ m_body m = JObj [("a", JNum "2")]) /\
  (exists m, message_from_str (rt toy 0) "{""id"":""1"",""type"":""t"",""typ"":""application/didcomm-plain+json"",""to"":[""x""],""body"":{""a"":2,""a"":1}}" = Some m /\ m_body m = JObj [("a", JNum "1")]).
Proof. split; (eexists; split; [vm_compute; reflexivity|reflexivity]). Qed.

(** ** C58 *)

(** Two encrypted texts with the same protected header, content, algorithm and sender key id whose entries agree in the key
    material: the outcome is the same, whatever the entries say about recipient, algorithm or key type. *)
Theorem C58_material : forall E text text' e e' e2 e2' sk spk gpk, decodes E text e e2 -> decodes E text' e' e2' ->
  jwe_get e jh_alg = jwe_get e' jh_alg -> jwe_get e jh_skid = jwe_get e' jh_skid ->
  je_protected e2 = je_protected e2' -> je_ciphertext e2 = je_ciphertext e2' -> je_iv e2 = je_iv e2' -> je_tag e2 = je_tag e2' ->
  orel (Forall2 same_material) (jwe_recipients e) (jwe_recipients e') ->
  receive E text sk spk gpk = receive E text' sk spk gpk.
Proof.
  intros E text text' e e' e2 e2' sk spk gpk [T1 [J1 J2]] [T1' [J1' J2']] HA HS P1 P2 P3 P4 HM. destruct sk as [sk|].
  - apply receive_by_jwe; [exact T1|exact T1'|]. exact (receive_material E text text' sk spk e e' e2 e2' J1 J1' HA HS HM J2 J2' P1 P2 P3 P4).
  - unfold receive. now rewrite T1, T1'.
Qed.

Lemma re_material : forall E k r r', env_ok E -> good_rc r -> good_rc r' -> same_material r r' -> same_material (re_recipient (rt E k) r) (re_recipient (rt E k) r').
Proof.
  intros E k r r' HE [_ [HJ _]] [_ [HJ' _]] [H1 [H2 [H3 H4]]]. unfold same_material, re_recipient. cbn [rc_header rc_encrypted_key re_jwk jk_epk jk_other].
  assert (G : forall x, rust_jwk (rc_header x) -> forall n, map_get n (hord (rt E k) string (jk_other (rc_header x))) = map_get n (jk_other (rc_header x))).
  { intros x Hx n. symmetry. apply map_get_perm; [apply Hx|]. apply Permutation_sym. apply (env_drt E k HE). }
  rewrite !(G r HJ), !(G r' HJ'). auto.
Qed.
Lemma re_materials : forall E k l l', env_ok E -> Forall good_rc l -> Forall good_rc l' -> Forall2 same_material l l' ->
  Forall2 same_material (map (re_recipient (rt E k)) l) (map (re_recipient (rt E k)) l').
Proof.
  intros E k l l' HE G G' F. induction F as [|r r' l l' H F IH]; [constructor|]. inversion G; inversion G'; subst. cbn [map]. constructor; [now apply re_material|auto].
Qed.
Lemma re_jwe_materials : forall E k e e', env_ok E -> good_jwe e -> good_jwe e' -> orel (Forall2 same_material) (jwe_recipients e) (jwe_recipients e') ->
  orel (Forall2 same_material) (jwe_recipients (re_jwe (rt E k) e)) (jwe_recipients (re_jwe (rt E k) e')).
Proof.
  intros E k e e' HE [_ [_ [G1 [G2 _]]]] [_ [_ [G1' [G2' _]]]] H. unfold jwe_recipients in *. cbn [re_jwe je_recipients je_recipient].
  destruct (je_recipients e) as [l|], (je_recipient e) as [r|], (je_recipients e') as [l'|], (je_recipient e') as [r'|]; cbn in *; try contradiction; try exact I;
    try (now apply re_materials); try (apply (re_materials E k [r] [r'] HE); auto); try (apply (re_materials E k [r] l' HE); auto); apply (re_materials E k l [r'] HE); auto.
Qed.
(** In particular the entries of a sealed message can be relabelled on the way, or moved between the flattened and the
    general form, without the recipient noticing. *)
Theorem C58_sealed : forall E rnd m sk keys text, env_ok E -> sendable E m -> seal E rnd m sk keys = Ok text ->
  exists e, text = jwe_json e /\ good_jwe e /\
    forall e' rsk spk gpk, good_jwe e' -> same_but_entries e e' -> orel (Forall2 same_material) (jwe_recipients e) (jwe_recipients e') ->
      receive E (jwe_json e') rsk spk gpk = receive E text rsk spk gpk.
Proof.
  intros E rnd m sk keys text HE HS HT. apply seal_text in HT. destruct HT as [a [rs [sh [c [H1 [H2 [H3 [H4 [H5 [_ [H6 [H7 [H8 ->]]]]]]]]]]]]].
  pose proof (sealed_env_good (seal_header m) sh rs (take (String.length c - 16) c) (drop (String.length c - 16) c) (sr_iv rnd) (seal_header_good E m HS) H5 H6) as HG.
  eexists. split; [reflexivity|]. split; [exact HG|]. intros e' rsk spk gpk HG' [B1 [B2 [B3 [B4 B5]]]] HM. symmetry.
  eapply (C58_material E _ _ _ _ _ _ rsk spk gpk (decodes_good E _ HG) (decodes_good E _ HG')).
  - unfold jwe_get. cbn [re_jwe je_protected je_unprotected]. now rewrite B1, B2.
  - unfold jwe_get. cbn [re_jwe je_protected je_unprotected]. now rewrite B1, B2.
  - cbn [re_jwe je_protected]. now rewrite B1.
  - cbn [re_jwe je_ciphertext]. exact B3.
  - cbn [re_jwe je_iv]. exact B4.
  - cbn [re_jwe je_tag]. exact B5.
  - now apply re_jwe_materials.
Qed.
(** What the recipient entry says about who can open it, and with which algorithm, is replaced. *)
Definition relabelled (kid : option string) (alg : key_algorithm) (r : recipient) : recipient :=
  {| rc_header := {| jk_kty := jk_kty (rc_header r); jk_use := jk_use (rc_header r); jk_crv := jk_crv (rc_header r); jk_key_ops := jk_key_ops (rc_header r);
       jk_alg := alg; jk_kid := kid; jk_epk := jk_epk (rc_header r); jk_other := jk_other (rc_header r) |}; rc_encrypted_key := rc_encrypted_key r |}.
Lemma relabelled_strings : forall kid alg r, opt_all rust_string kid -> Forall rust_string (recipient_strings r) -> Forall rust_string (recipient_strings (relabelled kid alg r)).
Proof.
  intros kid alg r HK H. unfold recipient_strings, jwk_strings in *. cbn [relabelled rc_header rc_encrypted_key jk_kty jk_use jk_crv jk_kid jk_epk jk_other].
  rewrite !Forall_app in *. destruct H as [[H1 [H2 [H3 [_ H5]]]] H6]. repeat (split; try assumption). destruct kid; cbn in *; [constructor; [exact HK|constructor]|constructor].
Qed.
Theorem C58_relabelled : forall E e kid alg l rsk spk gpk, env_ok E -> good_jwe e -> opt_all rust_string kid -> je_recipients e = Some l ->
  receive E (jwe_json {| je_protected := je_protected e; je_unprotected := je_unprotected e; je_recipient := je_recipient e;
                         je_recipients := Some (map (relabelled kid alg) l); je_ciphertext := je_ciphertext e; je_iv := je_iv e; je_tag := je_tag e |}) rsk spk gpk =
  receive E (jwe_json e) rsk spk gpk.
Proof.
  intros E e kid alg l rsk spk gpk HE HG HK HL. assert (GL : Forall good_rc l) by (destruct HG as [_ [_ [_ [H _]]]]; now rewrite HL in H).
  set (e' := {| je_protected := je_protected e; je_unprotected := je_unprotected e; je_recipient := je_recipient e;
    je_recipients := Some (map (relabelled kid alg) l); je_ciphertext := je_ciphertext e; je_iv := je_iv e; je_tag := je_tag e |}).
  assert (HG' : good_jwe e').
  { destruct HG as [G1 [G2 [G3 [_ G4]]]]. split; [exact G1|]. split; [exact G2|]. split; [exact G3|]. split; [|exact G4]. cbn. clear - GL HK.
    induction GL as [|r l [H1 [H2 H3]] GL IH]; cbn [map]; constructor; [|exact IH]. split; [|split; [exact H2|exact H3]].
    now apply relabelled_strings. }
  symmetry. eapply (C58_material E _ _ _ _ _ _ rsk spk gpk (decodes_good E _ HG) (decodes_good E _ HG')); try reflexivity.
  apply re_jwe_materials; [exact HE|exact HG|exact HG'|]. unfold jwe_recipients. cbn [e' je_recipients]. rewrite HL. cbn. clear. induction l as [|r l IH]; cbn [map]; constructor; [|exact IH].
  repeat split.
Qed.
(** The entry for bob, and the same entry addressed to mallory and labelled with another algorithm. *)
Example C58_example : exists r, encrypt_cek toy ex_rr (ex_jwe XC20P) alice_key "did:toy:bob" seal_cek (Some bob_key) = Ok r /\ good_jwe (ex_env [r]) /\
  jk_kid (rc_header (relabelled (Some "did:toy:mallory") NoneAlg r)) <> jk_kid (rc_header r) /\ same_material r (relabelled (Some "did:toy:mallory") NoneAlg r).
Proof.
  destruct (ex_entry seal_cek) as [r HR]. exists r. split; [exact HR|]. pose proof (encrypt_cek_good _ _ _ _ _ _ _ _ HR) as HG.
  split; [apply ex_env_good; constructor; [exact HG|constructor]|]. split; [|repeat split].
  apply encrypt_cek_ok in HR. destruct HR as [a [key [c [_ [_ [_ [_ [_ [_ [_ [_ [_ ->]]]]]]]]]]]].
  cbn [relabelled cek_recipient rc_header jk_kid]. intros H. apply some_inj in H. revert H. vm_compute. discriminate.
Qed.

Print Assumptions C57_message.
Print Assumptions C57_receive.
Print Assumptions C57_envelope.
Print Assumptions C57_reordered.
Print Assumptions C58_material.
Print Assumptions C58_sealed.
Print Assumptions C58_relabelled.
