(** The crate built without its feature [resolve] (Cargo.toml:60-64): the functions that have a second variant, and those that
    call them. *)

From Coq Require Import Ascii String Arith NArith List Bool.
From Verif Require Import Bytes Utf8 Base64 Json Value Types Serde Message Attach ChaCha Sha256 Envelope.
Import ListNotations.
Local Open Scope string_scope.

(** src/messages/message.rs:160-183, without lines 165-180 *)
Definition as_jwe_off (m : message) (a : crypto_algorithm) (key : option string) : message :=
  let h := as_encrypted (m_jwm m) a in
  match key with
  | Some k => with_jwm m (jh_with_kid h (Some (b64_encode k)))
  | None => with_jwm m h
  end.

(** src/messages/helpers/encryption.rs:344-371, with lines 359-362 instead of 352-358 *)
Definition shared_for_off (E : env) (sk : string) (pk : option string) : res string :=
  let? pub := match pk with Some k => Ok k | None => Err EDidResolveFailed end in
  let? s := arr32 sk in
  let? p := arr32 pub in
  Ok (x_dh E s p).
(** src/messages/helpers/encryption.rs:297-322 *)
Definition generate_kek_off (E : env) (sk ze alg : string) (pk : option string) : res string :=
  let? shared := shared_for_off E sk pk in
  concat_kdf (ze ++ shared) alg None None.
(** src/messages/helpers/encryption.rs:122-218 *)
Definition encrypt_cek_off (E : env) (rr : rec_rand) (m : message) (sk dest cek : string) (pk : option string) : res recipient :=
  let? alg := oerr (jh_alg (m_jwm m)) (EGeneric "missing encryption 'alg' in header") in
  let? ze := shared_for_off E (rr_esk rr) pk in
  let? kek := generate_kek_off E sk ze alg pk in
  let? x :=
    (if String.eqb alg "ECDH-1PU+A256KW" then
       let iv := rr_iv rr 12 in
       let? k := exact_len 32 kek in
       let? n := exact_len 12 iv in
       let? c := oerr (gcm_enc E k n "" cek) (EGeneric "aead") in
       Ok (Ecdh1puA256kw, iv, c)
     else if String.eqb alg "ECDH-1PU+XC20PKW" then
       let iv := rr_iv rr 24 in
       let? k := exact_len 32 kek in
       let? n := exact_len 24 iv in
       let? c := oerr (xc_enc E k n "" cek) (EGeneric "aead") in
       Ok (Ecdh1puXc20pkw, iv, c)
     else Err (EGeneric "encryption algorithm not implemented")) in
  let? p := split_tag (snd x) in
  Ok (cek_recipient E rr dest (fst (fst x)) (snd (fst x)) (fst p) (snd p)).
(** src/messages/helpers/encryption.rs:29-107 *)
Definition decrypt_cek_off (E : env) (e : jwe) (sk : string) (r : recipient) (pk : option string) : res string :=
  let? alg := oerr (jwe_get e jh_alg) (EGeneric "missing encryption 'alg' in header") in
  let? skid := oerr (jwe_get e jh_skid) (EGeneric "missing 'skid' in header") in
  let? ek := oerr (jk_epk (rc_header r)) (EGeneric "JWM header is missing epk") in
  let? epub := oerr (b64_decode (ep_x ek)) EBase64Decode in
  if negb (String.length epub =? 32)%nat then Err (EGeneric "failed to decode epk public key") else
  let? s := arr32 sk in
  let ze := x_dh E s epub in
  let? kek := generate_kek_off E sk ze alg pk in
  let? iv_text := oerr (map_get "iv" (jk_other (rc_header r))) (EGeneric "missing iv in header") in
  let? iv := oerr (b64_decode iv_text) EBase64Decode in
  let? tag_text := oerr (map_get "tag" (jk_other (rc_header r))) (EGeneric "missing tag in header") in
  let? sealed := oerr (b64_decode (rc_encrypted_key r)) EBase64Decode in
  let? tag := oerr (b64_decode tag_text) EBase64Decode in
  if String.eqb alg "ECDH-1PU+XC20PKW" then
    let? n := exact_len 24 iv in
    let? k := exact_len 32 kek in
    oerr (xc_dec E k n "" (sealed ++ tag)) (EGeneric "aead")
  else if String.eqb alg "ECDH-1PU+A256KW" then
    let? n := exact_len 12 iv in
    let? k := exact_len 32 kek in
    oerr (gcm_dec E k n "" (sealed ++ tag)) (EGeneric "aead")
  else Err (EGeneric "encryption algorithm not implemented").

(** src/messages/message.rs:519-530; [i] is the loop index. *)
Fixpoint seal_loop_off (E : env) (rnd : nat -> rec_rand) (m : message) (sk : string) (i : nat)
    (dests : list string) (pks : list (option string)) : res (list recipient) :=
  match dests, pks with
  | d :: ds, p :: ps =>
      let? r := encrypt_cek_off E (rnd i) m sk d seal_cek p in
      let? rs := seal_loop_off E rnd m sk (S i) ds ps in
      Ok (r :: rs)
  | _, _ => Ok []
  end.
(** src/messages/message.rs:485-535 *)
Definition seal_off (E : env) (rnd : seal_rand) (m : message) (sk : string) (keys : option (list (option string))) : res string :=
  if negb (String.length sk =? 32)%nat then Err (EInvalidKeySize "!32") else
  let to := dh_to (m_did m) in
  let? pks :=
    match keys with
    | Some l =>
        if negb (List.length l =? List.length to)%nat
        then Err (EGeneric "`to` and `recipient_public_keys` must have same length")
        else Ok l
    | None => Ok (repeat None (List.length to))
    end in
  if (List.length to =? 0)%nat then Err ENoJweRecipient
  else if (m_flat_jwe m && (1 <? List.length to)%nat)%bool
  then Err (EGeneric "flat JWE serialization only supports a single `to`") else
  let? rs := seal_loop_off E (sr_rec rnd) m sk 0 to pks in
  let m := with_recipients m (Some rs) in
  let? a := crypter_of (m_jwm m) in
  encrypt (sr_iv rnd) m (encryptor E a) seal_cek.
(** src/messages/message.rs:621-637 *)
Definition seal_signed_off (E : env) (rnd : seal_rand) (m : message) (sk : string) (keys : option (list (option string)))
    (sa : signature_algorithm) (ssk : string) : res string :=
  let? signed := sign (as_jws m sa) (signer E sa) ssk in
  let? j := oerr (parse signed) ESerde in
  let? b := oerr (value_of (rt E 0) max_depth j) ESerde in
  seal_off E rnd (set_typ (with_body m b) DidCommJws) sk keys.
(** src/messages/message.rs:454-475 *)
Definition routed_by_off (E : env) (rnd1 rnd2 : seal_rand) (uuid : string) (m : message) (sk : string)
    (keys : option (list (option string))) (mediator : string) (mediator_key : option string) : res string :=
  let from := or_empty (dh_from (m_did m)) in
  let? a := crypter_of (m_jwm m) in
  let? next := first_to (m_did m) in
  let? inner := seal_off E rnd1 m sk keys in
  let body := with_payload (mediated_new next) inner in
  let outer := set_typ (as_jwe_off (set_from (set_to (message_new uuid) [mediator]) from) a mediator_key) DidCommForward in
  let? outer := set_body (rt E 0) outer (print (ser_mediated body)) in
  seal_off E rnd2 outer sk (Some [mediator_key]).

(** src/messages/helpers/receive.rs:99-112 *)
Fixpoint find_cek_off (E : env) (e : jwe) (sk : string) (pk : option string) (acc : res string) (l : list recipient) : res string :=
  match l with
  | [] => acc
  | r :: rest =>
      match decrypt_cek_off E e sk r pk with
      | Ok k => Ok k
      | Err x => find_cek_off E e sk pk (Err x) rest
      | Panic => Panic
      end
  end.
(** src/messages/helpers/receive.rs:53-122, with lines 77-80 instead of 67-76 *)
Definition receive_jwe_off (E : env) (text sk : string) (sender_pk : option string) : res string :=
  let? e := oerr (jwe_from_str (rt E 1) text) ESerde in
  let? alg := oerr (jwe_get e jh_alg) (EGeneric "missing algorithm in JWE header(s)") in
  let? pk := match sender_pk with Some k => Ok k | None => Err EDidResolveFailed end in
  let? s := arr32 sk in
  let? p := arr32 pk in
  let shared := x_dh E s p in
  let? a := crypto_alg_of alg in
  let? m :=
    match jwe_recipients e with
    | Some l =>
        let? key := cek_error (find_cek_off E e sk sender_pk (Err (EGeneric "no recipients found in JWE")) l) in
        decrypt (rt E 2) (rt E 3) text (decrypter E a) key
    | None => decrypt (rt E 2) (rt E 3) text (decrypter E a) shared
    end in
  Ok (message_json m).
(** src/messages/message.rs:410-434 *)
Definition receive_off (E : env) (text : string) (sk sender_pk signing_pk : option string) : res message :=
  let? t := get_message_type (rt E 0) text in
  let? text :=
    (if is_jwe_type t then
       let? k := oerr sk (EGeneric "missing encryption recipient private key") in
       receive_jwe_off E text k sender_pk
     else Ok text) in
  let? t := get_message_type (rt E 4) text in
  let? text := (if is_jws_type t then receive_jws E text signing_pk else Ok text) in
  oerr (message_from_str (rt E 9) text) ESerde.
