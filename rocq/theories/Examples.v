(** Concrete messages used to show that the hypotheses of the theorems are met. *)

From Coq Require Import Ascii String Arith NArith List Bool Permutation Sorted.
From Verif Require Import Bytes Utf8 Json Value Types Message Envelope Spec CryptoLaws.
Import ListNotations.
Local Open Scope string_scope.

(** Cases of membership in a concrete list. *)
Ltac each H := cbn in H; repeat (destruct H as [H|H]; [subst; cbn|]); [..|destruct H].
Ltac rust_val := repeat first
  [ apply rv_null | apply rv_bool | apply rv_num; vm_compute; reflexivity
  | match goal with |- rust_value (JStr ?b ?s) => change b with (needs_escape s); apply rv_str end
  | apply rv_arr; let x := fresh "x" in let H := fresh "H" in intros x H; each H
  | apply rv_obj; [repeat (constructor; [|repeat (constructor; [vm_compute; reflexivity|]); constructor]); constructor
                  |let x := fresh "x" in let H := fresh "H" in intros x H; each H] ].
Ltac plain_tac := let k := fresh "k" in let v := fresh "v" in let r := fresh "r" in let E := fresh "E" in
  intros k v r E; first [discriminate E | injection E as <- _ _; discriminate].
Ltac stable_val := repeat first
  [ apply st_null | apply st_bool | apply st_num; vm_compute; reflexivity | apply st_str
  | apply st_arr; let x := fresh "x" in let H := fresh "H" in intros x H; each H
  | apply st_obj; [plain_tac|]; let x := fresh "x" in let H := fresh "H" in intros x H; each H ].
Ltac ordinary_val := repeat first
  [ apply or_null | apply or_bool | apply or_num | apply or_str
  | apply or_arr; let x := fresh "x" in let H := fresh "H" in intros x H; each H
  | apply or_obj; let x := fresh "x" in let H := fresh "H" in intros x H; each H; (split; [discriminate|]) ].
Ltac forall_tac t := repeat (apply Forall_cons; [t|]); try apply Forall_nil.
Ltac str_tac := vm_compute; reflexivity.
Ltac in_tac H := repeat (destruct H as [H|H]; [discriminate H|]); exact H.
Ltac nodup_tac := unfold rust_jwk, unique_keys; cbn [map fst dh_other m_did jk_other];
  repeat (apply NoDup_cons; [let G := fresh "G" in intros G; cbn [In] in G; in_tac G|]); apply NoDup_nil.
Ltac u64_tac := unfold is_u64; apply N.leb_le; vm_compute; reflexivity.
Ltac opt_tac t := first [exact I | cbv [opt_all]; t].
Ltac avoid_tac := let k := fresh "k" in let H := fresh "H" in let G := fresh "G" in
  intros k H; cbn in H; repeat (destruct H as [H|H]; [subst k; intros G; cbn in G; in_tac G|]); destruct H.
Ltac thread_tac := split; [opt_tac ltac:(cbn; u64_tac)|opt_tac ltac:(cbn [th_received_orders]; split; [nodup_tac|forall_tac ltac:(cbn [snd]; u64_tac)])].
Ltac reveal m := let m' := eval hnf in m in change m with m'.
Ltac rust_msg := constructor;
  [ match goal with |- Forall _ ?l => let l' := eval vm_compute in l in change l with l' end; forall_tac str_tac
  | opt_tac ltac:(cbn; nodup_tac) | opt_tac ltac:(cbn; nodup_tac) | cbn; nodup_tac
  | opt_tac ltac:(cbn; u64_tac) | opt_tac ltac:(cbn; u64_tac)
  | opt_tac ltac:(cbn; thread_tac)
  | opt_tac ltac:(cbn; forall_tac ltac:(cbn; nodup_tac))
  | cbn; rust_val
  | cbn [m_attachments]; forall_tac ltac:(opt_tac ltac:(cbn; u64_tac)) ].
Ltac send_msg := constructor;
  [ rust_msg | discriminate | avoid_tac | split; opt_tac ltac:(cbn; avoid_tac)
  | opt_tac ltac:(cbn; forall_tac avoid_tac) | apply Nat.leb_le; vm_compute; reflexivity | cbn; stable_val ].

(** A body with nesting, unsorted-looking names, escapes, large integers and a float. *)
Definition ex_body : json :=
  JObj [("a", JArr [JNum "1"; JNum "-9223372036854775808"; JNum "2.5"; JNull]);
        ("b", JObj [("k""\", JStr true "line
break"); ("u", JStr false "snowman: ☃")]);
        ("n", JNum "18446744073709551615")].
Definition ex_jwk : jwk :=
  {| jk_kty := Some "OKP"; jk_use := None; jk_crv := Some "X25519"; jk_key_ops := [KDeriveKey]; jk_alg := NoneAlg;
     jk_kid := Some "k1"; jk_epk := Some {| ep_kty := "OKP"; ep_crv := "X25519"; ep_x := "AAAA"; ep_y := None |};
     jk_other := [("x5t", "v""1"); ("x5u", "v2")] |}.
Definition ex_header : jwm_header :=
  {| jh_typ := DidCommRaw; jh_enc := None; jh_kid := Some "kid-1"; jh_skid := None; jh_alg := None;
     jh_jku := Some "https://keys"; jh_jwk := Some ex_jwk; jh_epk := None; jh_cty := Some "text" |}.
Definition ex_did : didcomm_header :=
  {| dh_id := "urn:1"; dh_thid := Some "t1"; dh_pthid := None; dh_type := "https://example.org/ping/1.0/ping";
     dh_to := ["did:toy:bob"; "did:toy:carol"]; dh_from := Some "did:toy:alice";
     dh_created := Some 1700000000%N; dh_expires := Some 1700000001%N;
     dh_from_prior := Some {| pc_sub := None; pc_iss := "did:toy:old" |};
     dh_thread := Some {| th_thid := "t1"; th_pthid := ""; th_sender_order := Some 3%N;
                          th_received_orders := Some [("did:toy:bob", 1%N); ("did:toy:carol", 0%N)]; th_goal_code := None |};
     dh_other := [("lang", "de ""\"); ("x-empty", "")] |}.
Definition ex_attachment : attachment :=
  {| at_id := Some "1"; at_description := Some "a ""quoted"" one"; at_filename := None; at_media_type := Some "application/json";
     at_format := Some "application/json"; at_lastmod := None; at_byte_count := Some 12%N;
     at_data := {| ad_jws := None; ad_hash := None; ad_links := ["l1"; "l2"]; ad_base64 := None; ad_json := Some "{""x"":1}" |} |}.
Definition ex_plain : message :=
  {| m_jwm := ex_header; m_did := ex_did; m_recipients := None; m_body := ex_body;
     m_flat_jwe := false; m_flat_jws := false; m_attachments := [ex_attachment; ex_attachment] |}.
Lemma ex_plain_sendable : sendable toy ex_plain.
Proof. unfold ex_plain, ex_header, ex_did, ex_body, ex_jwk, ex_attachment. send_msg. Qed.
Lemma ex_plain_free : avoids envelope_names (dh_other (m_did ex_plain)).
Proof. avoid_tac. Qed.

(** A small message. *)
Definition ex_small : message :=
  {| m_jwm := jwm_default;
     m_did := {| dh_id := "urn:2"; dh_thid := None; dh_pthid := None; dh_type := "JWM"; dh_to := ["did:toy:bob"];
                 dh_from := Some "did:toy:alice"; dh_created := None; dh_expires := None; dh_from_prior := None;
                 dh_thread := None; dh_other := [] |};
     m_recipients := None; m_body := JObj [("hello", JStr false "world")];
     m_flat_jwe := false; m_flat_jws := false; m_attachments := [] |}.
Lemma ex_small_sendable : sendable toy ex_small.
Proof. unfold ex_plain, ex_small, ex_header, ex_did, ex_body, ex_jwk, ex_attachment. send_msg. Qed.
Lemma ex_small_free : avoids envelope_names (dh_other (m_did ex_small)).
Proof. avoid_tac. Qed.
