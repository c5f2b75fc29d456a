(** Encrypted and signed envelopes: encrypt/decrypt, sign/verify, seal/receive, routing and the external crypto path.
    Definitions only.

    Everything the crate takes from elsewhere is a field of [env] or an explicit parameter:
    the cryptographic primitives, the DID resolver, random values, the text form of floats and the iteration
    order of hash maps.  Nothing is assumed about them here; laws are hypotheses of theorems (CryptoLaws.v). *)

From Coq Require Import Ascii String Arith NArith List Bool.
From Verif Require Import Bytes Base64 Utf8 Json Value Types Serde Message Attach Regex ChaCha Sha256.
Import ListNotations.
Local Open Scope string_scope.

(** What is taken from outside the crate: Cargo.toml:24-32 and the standard library. Called at
    src/crypto/encryptor.rs:24-105, src/crypto/signer.rs:27-94, src/messages/helpers/encryption.rs:29-218, 344-371,
    src/messages/message.rs:165-180. *)
Record env := {
  (** x25519-dalek: public key of a secret, shared secret (both of 32 bytes). *)
  x_pub : string -> string;
  x_dh : string -> string -> string;
  (** chacha20poly1305 / aes-gcm: key, nonce, associated data, message; the result includes the 16 byte tag.
      Encryption fails only for over-long messages. *)
  xc_enc : string -> string -> string -> string -> option string;
  xc_dec : string -> string -> string -> string -> option string;
  gcm_enc : string -> string -> string -> string -> option string;
  gcm_dec : string -> string -> string -> string -> option string;
  (** libaes CBC: key, iv, message. *)
  cbc_enc : string -> string -> string -> string;
  (** ed25519-dalek / p256 / k256: [None] is an error (malformed key or signature). *)
  sig_sign : signature_algorithm -> string -> string -> option string;
  sig_verify : signature_algorithm -> string -> string -> string -> option bool;
  (** ddoresolver_rs::resolve_any *)
  resolve : string -> option did_doc;
  (** serde_json floats, see Value.v; Float.v models the real function *)
  fl : string -> option string;
  (** hash map orders, one per deserialisation call *)
  ho : nat -> forall V : Type, list (string * V) -> list (string * V);
}.

(** Environment of the [k]-th deserialisation call of a function. For example src/messages/helpers/receive.rs:58,
    src/messages/message_raw_crypto.rs:102,119. *)
Definition rt (E : env) (k : nat) : drt := {| fnorm := fl E; hord := ho E k |}.

(** ** Symmetric ciphers (src/crypto/encryptor.rs) *)

(** src/crypto/mod.rs:9-11 ([SymmetricCypherMethod]) *)
Definition cypher := string -> string -> string -> string -> res string.

(** src/crypto/encryptor.rs:135-140 *)
Definition check_nonce (nonce : string) (n : nat) : res unit :=
  if (String.length nonce <? n)%nat then Err EPlugCryptoFailure else Ok tt.

(** [GenericArray::from_slice], [key.into()]: panic unless the length is exactly [n].
    src/crypto/encryptor.rs:32-33,46-47,82-83,95-96, src/messages/helpers/encryption.rs:81-93,169-189. *)
Definition exact_len (n : nat) (s : string) : res string :=
  if (String.length s =? n)%nat then Ok s else Panic.

(** [array_ref!(x, 0, 32)]: panics when there are fewer bytes, ignores the others. src/crypto/encryptor.rs:64,
    src/messages/helpers/encryption.rs:55,365-367, src/messages/helpers/receive.rs:84-86. *)
Definition arr32 (s : string) : res string :=
  if (String.length s <? 32)%nat then Panic else Ok (take 32 s).

(** src/crypto/encryptor.rs:24-69; arguments nonce, key, message, associated data. *)
Definition encryptor (E : env) (a : crypto_algorithm) : cypher := fun nonce key msg aad =>
  match a with
  | XC20P =>
      let? u := check_nonce nonce 24 in
      let? n := exact_len 24 nonce in
      let? k := exact_len 32 key in
      oerr (xc_enc E k n aad msg) (EGeneric "aead")
  | A256GCM =>
      let? u := check_nonce nonce 12 in
      let? k := exact_len 32 key in
      oerr (gcm_enc E k (take 12 nonce) aad msg) (EGeneric "aead")
  | A256CBC =>
      if negb (String.length key =? 32)%nat then Err (EInvalidKeySize "expected 256 bit (32 byte) key")
      else if negb (String.length nonce =? 16)%nat then Err (EInvalidKeySize "expected 16 bytes nonce")
      else Ok (cbc_enc E key nonce msg)
  end.

(** src/crypto/encryptor.rs:73-105. For A256CBC the source has [todo!()] when the closure is requested; here the closure
    panics when called. [receive_jwe], the only caller, gets its algorithm from [crypto_alg_of], which never gives A256CBC. *)
Definition decrypter (E : env) (a : crypto_algorithm) : cypher := fun nonce key msg aad =>
  match a with
  | XC20P =>
      let? u := check_nonce nonce 24 in
      let? k := exact_len 32 key in
      let? n := exact_len 24 nonce in
      oerr (xc_dec E k n aad msg) (EGeneric "aead")
  | A256GCM =>
      let? u := check_nonce nonce 12 in
      let? k := exact_len 32 key in
      oerr (gcm_dec E k (take 12 nonce) aad msg) (EGeneric "aead")
  | A256CBC => Panic
  end.

(** ** Signatures (src/crypto/signer.rs) *)

(** src/crypto/signer.rs:27-56 *)
Definition signer (E : env) (a : signature_algorithm) (key msg : string) : res string :=
  oerr (sig_sign E a key msg) (match a with Es256k => EGeneric "signature" | _ => EEdDsa end).
(** src/crypto/signer.rs:67-94 *)
Definition validator (E : env) (a : signature_algorithm) (key msg sg : string) : res bool :=
  oerr (sig_verify E a key msg sg) EEdDsa.

(** ** JWE construction (src/messages/jwe.rs) *)

(** src/messages/jwe.rs:67-84; [rnd] are the 24 bytes that [ensure_iv] (145-152) draws when no iv is given. *)
Definition ensure_iv (iv : option string) (rnd : string) : string :=
  match iv with Some s => s | None => b64_encode rnd end.
(** src/messages/jwe.rs:67-84 *)
Definition jwe_new (unprotected : option jwm_header) (recipients : option (list recipient)) (ciphertext : string)
    (protected : option jwm_header) (tag iv : option string) (rnd : string) : jwe :=
  {| je_protected := protected; je_unprotected := unprotected; je_recipient := None; je_recipients := recipients;
     je_ciphertext := b64_encode ciphertext; je_iv := ensure_iv iv rnd; je_tag := option_map b64_encode tag |}.
(** src/messages/jwe.rs:87-104 *)
Definition jwe_new_flat (unprotected : option jwm_header) (r : recipient) (ciphertext : string)
    (protected : option jwm_header) (tag iv : option string) (rnd : string) : jwe :=
  {| je_protected := protected; je_unprotected := unprotected; je_recipient := Some r; je_recipients := None;
     je_ciphertext := b64_encode ciphertext; je_iv := ensure_iv iv rnd; je_tag := option_map b64_encode tag |}.
(** src/messages/jwe.rs:115-122 *)
Definition jwe_iv (e : jwe) : res string := unwrap (b64_decode (je_iv e)).
(** src/messages/jwe.rs:120-122 *)
Definition jwe_payload (e : jwe) : res string := unwrap (b64_decode (je_ciphertext e)).

(** ** encrypt / decrypt (src/messages/message_raw_crypto.rs) *)

(** [split_at(len - 16)]: panics on shorter input. src/messages/message_raw_crypto.rs:53,
    src/messages/helpers/encryption.rs:203. *)
Definition split_tag (s : string) : res (string * string) :=
  if (String.length s <? 16)%nat then Panic
  else Ok (take (String.length s - 16) s, drop (String.length s - 16) s).

(** [to[0]]. Index into [to]: src/messages/message_raw_crypto.rs:42. *)
Definition first_to (d : didcomm_header) : res string :=
  match dh_to d with x :: _ => Ok x | [] => Panic end.

(** src/messages/message_raw_crypto.rs:33-44: the protected header of the envelope. *)
Definition encrypt_header (m : message) : res jwm_header :=
  let h := m_jwm m in
  let h := match jh_typ h with DidCommForward => h | _ => jh_with_typ h DidCommJwe end in
  let? h := match m_recipients m with
            | Some _ => Ok h
            | None => let? t := first_to (m_did m) in Ok (jh_with_kid h (Some t))
            end in
  Ok (jh_with_skid h (dh_from (m_did m))).

(** src/messages/message_raw_crypto.rs:32-83; [iv] are the 24 random bytes of [Jwe::generate_iv] (src/messages/jwe.rs:107-112). *)
Definition encrypt (iv : string) (m : message) (crypter : cypher) (cek : string) : res string :=
  let iv_text := b64_encode iv in
  let? h := encrypt_header m in
  let aad := header_b64 h in
  let? nonce := oerr (b64_decode iv_text) EBase64Decode in
  let? ct := crypter nonce cek (message_json m) aad in
  let? p := split_tag ct in
  let? e :=
    (if m_flat_jwe m then
       let? rs := oerr (m_recipients m) (EGeneric "flat JWE JSON serialization needs a recipient") in
       match rs with
       | [r] => Ok (jwe_new_flat None r (fst p) (Some h) (Some (snd p)) (Some iv_text) "")
       | _ => Err (EGeneric "flat JWE JSON serialization needs exactly one recipient")
       end
     else Ok (jwe_new None (m_recipients m) (fst p) (Some h) (Some (snd p)) (Some iv_text) "")) in
  Ok (jwe_json e).

(** src/messages/message_raw_crypto.rs:97-125; [R1] for the envelope, [R2] for the message. *)
Definition decrypt (R1 R2 : drt) (received : string) (decrypt_with : cypher) (cek : string) : res message :=
  let? e := oerr (jwe_from_slice R1 received) ESerde in
  let? h := oerr (je_protected e) (EGeneric "jwe is missing protected header") in
  let aad := header_b64 h in
  let? tag := oerr (je_tag e) (EGeneric "JWE is missing tag") in
  let? payload := jwe_payload e in
  let? tag_bytes := oerr (b64_decode tag) EBase64Decode in
  let? iv := jwe_iv e in
  match decrypt_with iv cek (payload ++ tag_bytes) aad with
  | Ok raw => oerr (message_from_slice R2 raw) ESerde
  | Err _ => Err EPlugCryptoFailure
  | Panic => Panic
  end.

(** ** sign / verify (src/messages/message_raw_crypto.rs) *)

(** src/messages/message_raw_crypto.rs:144-148, 191-193 *)
Definition signing_input (h : jwm_header) (payload : string) : string := header_b64 h ++ "." ++ payload.

(** src/messages/message_raw_crypto.rs:130-164 *)
Definition sign (m : message) (sign_with : string -> string -> res string) (key : string) : res string :=
  let h := jh_with_typ (m_jwm m) DidCommJws in
  match jh_alg h with
  | None => Err EJwsParse
  | Some _ =>
      let m := with_jwm m jwm_default in
      let payload := b64_encode (message_json m) in
      let? s := sign_with key (signing_input h payload) in
      let v := {| sg_protected := Some h; sg_header := None; sg_signature := s |} in
      Ok (jws_json
            (if m_flat_jws m
             then {| js_payload := payload; js_signature := Some v; js_signatures := None |}
             else {| js_payload := payload; js_signature := None;
                     js_signatures := Some (map (fun _ => v) (dh_to (m_did m))) |}))
  end.

(** src/messages/message_raw_crypto.rs:172-179, src/messages/helpers/receive.rs:150-157 *)
Definition jws_entries (w : jws) : res (list signature) :=
  match js_signatures w with
  | Some l => Ok l
  | None => match js_signature w with Some s => Ok [s] | None => Err EJwsParse end
  end.

(** src/messages/message_raw_crypto.rs:184-200: one signature entry. *)
Definition check_entry (E : env) (payload key : string) (s : signature) : res bool :=
  let? alg := oerr (sig_get s jh_alg) EJweParse in
  let? a := sig_alg_of alg in
  let? h := oerr (sg_protected s) EJwsParse in
  validator E a key (signing_input h payload) (sg_signature s).

(** src/messages/message_raw_crypto.rs:182-201 *)
Fixpoint check_entries (E : env) (payload key : string) (l : list signature) : res bool :=
  match l with
  | [] => Ok false
  | s :: r => let? b := check_entry E payload key s in if b then Ok true else check_entries E payload key r
  end.

(** src/messages/message_raw_crypto.rs:169-210; [R1] for the envelope, [R2] for the message. *)
Definition verify (E : env) (R1 R2 : drt) (text key : string) : res message :=
  let? w := oerr (jws_from_slice R1 text) ESerde in
  let? l := jws_entries w in
  let? ok := check_entries E (js_payload w) key l in
  if ok then
    let? raw := oerr (b64_decode (js_payload w)) EBase64Decode in
    oerr (message_from_slice R2 raw) ESerde
  else Err EJwsParse.

(** src/messages/message_raw_crypto.rs:221-224 *)
Definition verify_value (E : env) (R1 R2 : drt) (v : json) (key : string) : res message :=
  verify E R1 R2 (print v) key.

(** ** Key management (src/messages/helpers/encryption.rs) *)

(** src/messages/helpers/encryption.rs:374-381: big endian 32-bit length, then the bytes; longer input is an error. *)
Definition len_input (s : string) : res string :=
  let n := N.of_nat (String.length s) in
  if (n <? 4294967296)%N then Ok (be4 n ++ s) else Err (EGeneric "length").

(** The constant byte groups of src/messages/helpers/encryption.rs:257-272 *)
Definition b4 (a b c d : N) : string := String (chr a) (String (chr b) (String (chr c) (String (chr d) ""))).
(** src/messages/helpers/encryption.rs:258-267 *)
Definition opt_input (o : option string) : res string :=
  match o with Some s => len_input s | None => Ok (b4 0 0 0 0) end.

(** src/messages/helpers/encryption.rs:251-282: the hashed text, and its hash. *)
Definition kdf_input (secret alg : string) (apu apv : option string) : res string :=
  let? a := len_input alg in
  let? u := opt_input apu in
  let? v := opt_input apv in
  Ok (b4 0 0 0 1 ++ secret ++ (a ++ u ++ v ++ b4 0 0 1 0)).
(** src/messages/helpers/encryption.rs:251-282 *)
Definition concat_kdf (secret alg : string) (apu apv : option string) : res string :=
  let? x := kdf_input secret alg apu apv in Ok (sha256 x).

(** src/messages/helpers/encryption.rs:344-371 (feature resolve on) *)
Definition shared_for (E : env) (sk did : string) (pk : option string) : res string :=
  let? pub :=
    match pk with
    | Some k => Ok k
    | None =>
        let? doc := oerr (resolve E did) EDidResolveFailed in
        oerr (doc_key doc "X25519") EDidResolveFailed
    end in
  let? s := arr32 sk in
  let? p := arr32 pub in
  Ok (x_dh E s p).

(** src/messages/helpers/encryption.rs:297-322 *)
Definition generate_kek (E : env) (did sk ze alg : string) (pk : option string) : res string :=
  let? shared := shared_for E sk did pk in
  concat_kdf (ze ++ shared) alg None None.

(** Random values drawn for one recipient (src/messages/helpers/encryption.rs:138, 165-166, 182-183): ephemeral secret,
    nonce of a given length, and whether the two custom members come out of the hash map in reverse order. *)
Record rec_rand := { rr_esk : string; rr_iv : nat -> string; rr_swap : bool }.

(** src/messages/helpers/encryption.rs:157-158, 203-217 *)
Definition cek_recipient (E : env) (rr : rec_rand) (dest : string) (ka : key_algorithm) (iv sealed tag : string) : recipient :=
  let o := map_insert "tag" (b64_encode tag) (map_insert "iv" (b64_encode iv) []) in
  {| rc_header :=
       {| jk_kty := None; jk_use := None; jk_crv := None; jk_key_ops := []; jk_alg := ka;
          jk_kid := Some (did_of_url dest);
          jk_epk := Some {| ep_kty := "OKP"; ep_crv := "X25519"; ep_x := b64_encode (x_pub E (rr_esk rr)); ep_y := None |};
          jk_other := if rr_swap rr then rev o else o |};
     rc_encrypted_key := b64_encode sealed |}.

(** src/messages/helpers/encryption.rs:122-218 *)
Definition encrypt_cek (E : env) (rr : rec_rand) (m : message) (sk dest cek : string) (pk : option string) : res recipient :=
  let? alg := oerr (jh_alg (m_jwm m)) (EGeneric "missing encryption 'alg' in header") in
  let? ze := shared_for E (rr_esk rr) dest pk in
  let? kek := generate_kek E dest sk ze alg pk in
  let? x :=
    (if String.eqb alg "ECDH-1PU+A256KW" then
       let iv := rr_iv rr 12 in
       let? k := exact_len 32 kek in
       let? n := exact_len 12 iv in
       let? c := oerr (gcm_enc E k n "" cek) (EGeneric "aead") in
       Ok (Ecdh1puA256kw, iv, c)
     else if String.eqb alg "ECDH-1PU+XC20PKW" then
       let iv := rr_iv rr 24 in
       let? k := exact_len 32 kek in
       let? n := exact_len 24 iv in
       let? c := oerr (xc_enc E k n "" cek) (EGeneric "aead") in
       Ok (Ecdh1puXc20pkw, iv, c)
     else Err (EGeneric "encryption algorithm not implemented")) in
  let? p := split_tag (snd x) in
  Ok (cek_recipient E rr dest (fst (fst x)) (snd (fst x)) (fst p) (snd p)).

(** src/messages/helpers/encryption.rs:29-107 *)
Definition decrypt_cek (E : env) (e : jwe) (sk : string) (r : recipient) (pk : option string) : res string :=
  let? alg := oerr (jwe_get e jh_alg) (EGeneric "missing encryption 'alg' in header") in
  let? skid := oerr (jwe_get e jh_skid) (EGeneric "missing 'skid' in header") in
  let? ek := oerr (jk_epk (rc_header r)) (EGeneric "JWM header is missing epk") in
  let? epub := oerr (b64_decode (ep_x ek)) EBase64Decode in
  if negb (String.length epub =? 32)%nat then Err (EGeneric "failed to decode epk public key") else
  let? s := arr32 sk in
  let ze := x_dh E s epub in
  let? kek := generate_kek E skid sk ze alg pk in
  let? iv_text := oerr (map_get "iv" (jk_other (rc_header r))) (EGeneric "missing iv in header") in
  let? iv := oerr (b64_decode iv_text) EBase64Decode in
  let? tag_text := oerr (map_get "tag" (jk_other (rc_header r))) (EGeneric "missing tag in header") in
  let? sealed := oerr (b64_decode (rc_encrypted_key r)) EBase64Decode in
  let? tag := oerr (b64_decode tag_text) EBase64Decode in
  if String.eqb alg "ECDH-1PU+XC20PKW" then
    let? n := exact_len 24 iv in
    let? k := exact_len 32 kek in
    oerr (xc_dec E k n "" (sealed ++ tag)) (EGeneric "aead")
  else if String.eqb alg "ECDH-1PU+A256KW" then
    let? n := exact_len 12 iv in
    let? k := exact_len 32 kek in
    oerr (gcm_dec E k n "" (sealed ++ tag)) (EGeneric "aead")
  else Err (EGeneric "encryption algorithm not implemented").

(** src/messages/helpers/encryption.rs:221-226 *)
Definition crypter_of (h : jwm_header) : res crypto_algorithm :=
  match jh_alg h with None => Err EJweParse | Some a => crypto_alg_of a end.

(** src/messages/helpers/encryption.rs:236-248 *)
Definition signing_key (given kid : option string) : res string :=
  match given with
  | Some k => Ok k
  | None => match kid with Some k => oerr (hex_decode k) EJwsParse | None => Err EJwsParse end
  end.

(** ** seal (src/messages/message.rs:485-535) *)

(** Random values of one call: per recipient, and the 24 bytes of the content iv. src/messages/message.rs:485-535. *)
Record seal_rand := { sr_rec : nat -> rec_rand; sr_iv : string }.

(** src/messages/message.rs:519-530; [i] is the loop index. *)
Fixpoint seal_loop (E : env) (rnd : nat -> rec_rand) (m : message) (sk : string) (i : nat)
    (dests : list string) (pks : list (option string)) : res (list recipient) :=
  match dests, pks with
  | d :: ds, p :: ps =>
      let? r := encrypt_cek E (rnd i) m sk d seal_cek p in
      let? rs := seal_loop E rnd m sk (S i) ds ps in
      Ok (r :: rs)
  | _, _ => Ok []
  end.

(** src/messages/message.rs:485-535 *)
Definition seal (E : env) (rnd : seal_rand) (m : message) (sk : string) (keys : option (list (option string))) : res string :=
  if negb (String.length sk =? 32)%nat then Err (EInvalidKeySize "!32") else
  let to := dh_to (m_did m) in
  let? pks :=
    match keys with
    | Some l =>
        if negb (List.length l =? List.length to)%nat
        then Err (EGeneric "`to` and `recipient_public_keys` must have same length")
        else Ok l
    | None => Ok (repeat None (List.length to))
    end in
  if (List.length to =? 0)%nat then Err ENoJweRecipient
  else if (m_flat_jwe m && (1 <? List.length to)%nat)%bool
  then Err (EGeneric "flat JWE serialization only supports a single `to`") else
  let? rs := seal_loop E (sr_rec rnd) m sk 0 to pks in
  let m := with_recipients m (Some rs) in
  let? a := crypter_of (m_jwm m) in
  encrypt (sr_iv rnd) m (encryptor E a) seal_cek.

(** src/messages/message.rs:621-637 *)
Definition seal_signed (E : env) (rnd : seal_rand) (m : message) (sk : string) (keys : option (list (option string)))
    (sa : signature_algorithm) (ssk : string) : res string :=
  let? signed := sign (as_jws m sa) (signer E sa) ssk in
  let? j := oerr (parse signed) ESerde in
  let? b := oerr (value_of (rt E 0) max_depth j) ESerde in
  seal E rnd (set_typ (with_body m b) DidCommJws) sk keys.

(** src/messages/message.rs:454-475; [uuid] and [rnd2] belong to the outer message. *)
Definition routed_by (E : env) (rnd1 rnd2 : seal_rand) (uuid : string) (m : message) (sk : string)
    (keys : option (list (option string))) (mediator : string) (mediator_key : option string) : res string :=
  let from := or_empty (dh_from (m_did m)) in
  let? a := crypter_of (m_jwm m) in
  let? next := first_to (m_did m) in
  let? inner := seal E rnd1 m sk keys in
  let body := with_payload (mediated_new next) inner in
  let outer := set_typ (as_jwe (resolve E) (set_from (set_to (message_new uuid) [mediator]) from) a mediator_key) DidCommForward in
  let? outer := set_body (rt E 0) outer (print (ser_mediated body)) in
  seal E rnd2 outer sk (Some [mediator_key]).

(** ** receive (src/messages/helpers/receive.rs, src/messages/message.rs:410-434) *)

(** src/messages/helpers/receive.rs:30-41 *)
Definition get_message_type (R : drt) (text : string) : res message_type :=
  let? j := oerr (parse text) ESerde in
  let? u := oerr (de_unknown j) ESerde in
  if un_iv u then Ok DidCommJwe
  else if (un_signatures u || un_signature u)%bool then Ok DidCommJws
  else let? m := oerr (message_from_str R text) ESerde in Ok (jh_typ (m_jwm m)).

(** src/messages/helpers/receive.rs:89-97 *)
Definition jwe_recipients (e : jwe) : option (list recipient) :=
  match je_recipients e with
  | Some l => Some l
  | None => match je_recipient e with Some r => Some [r] | None => None end
  end.

(** src/messages/helpers/receive.rs:99-112: the first entry that decrypts, otherwise the last error. *)
Fixpoint find_cek (E : env) (e : jwe) (sk : string) (pk : option string) (acc : res string) (l : list recipient) : res string :=
  match l with
  | [] => acc
  | r :: rest =>
      match decrypt_cek E e sk r pk with
      | Ok k => Ok k
      | Err x => find_cek E e sk pk (Err x) rest
      | Panic => Panic
      end
  end.

(** [map_err] to a generic error (src/messages/helpers/receive.rs:114-115). *)
Definition cek_error (x : res string) : res string :=
  match x with Err _ => Err (EGeneric "could not decrypt cek") | y => y end.

(** src/messages/helpers/receive.rs:53-122 *)
Definition receive_jwe (E : env) (text sk : string) (sender_pk : option string) : res string :=
  let? e := oerr (jwe_from_str (rt E 1) text) ESerde in
  let? alg := oerr (jwe_get e jh_alg) (EGeneric "missing algorithm in JWE header(s)") in
  let? pk :=
    match sender_pk with
    | Some k => Ok k
    | None =>
        let? skid := oerr (jwe_get e jh_skid) (EGeneric "skid missing") in
        let? doc := oerr (resolve E skid) EDidResolveFailed in
        oerr (doc_key doc "X25519") EBadDid
    end in
  let? s := arr32 sk in
  let? p := arr32 pk in
  let shared := x_dh E s p in
  let? a := crypto_alg_of alg in
  let? m :=
    match jwe_recipients e with
    | Some l =>
        let? key := cek_error (find_cek E e sk sender_pk (Err (EGeneric "no recipients found in JWE")) l) in
        decrypt (rt E 2) (rt E 3) text (decrypter E a) key
    | None => decrypt (rt E 2) (rt E 3) text (decrypter E a) shared
    end in
  Ok (message_json m).

(** src/messages/helpers/receive.rs:161-173; the [i]-th entry uses deserialisation environments 20+2i and 21+2i. *)
Fixpoint verify_entries (E : env) (i : nat) (text : string) (given : option string) (l : list signature) : res (option message) :=
  match l with
  | [] => Ok None
  | s :: r =>
      match sig_get s jh_alg with
      | None => verify_entries E (S i) text given r
      | Some _ =>
          let? key := signing_key given (sig_get s jh_kid) in
          match verify E (rt E (20 + 2 * i)) (rt E (21 + 2 * i)) text key with
          | Ok m => Ok (Some m)
          | Err _ => verify_entries E (S i) text given r
          | Panic => Panic
          end
      end
  end.

(** src/messages/helpers/receive.rs:132-181 *)
Definition receive_jws (E : env) (text : string) (given : option string) : res string :=
  match message_from_str (rt E 5) text with
  | Some m =>
      match jh_alg (m_jwm m) with
      | None => Err EJweParse
      | Some _ =>
          let? key := signing_key given (jh_kid (m_jwm m)) in
          let? v := verify E (rt E 6) (rt E 7) (get_body m) key in
          Ok (message_json v)
      end
  | None =>
      match jws_from_str (rt E 8) text with
      | Some w =>
          let? l := jws_entries w in
          let? o := verify_entries E 0 text given l in
          let? v := oerr o EJwsParse in
          Ok (message_json v)
      | None => Err EJwsParse
      end
  end.

(** src/messages/message.rs:418 *)
Definition is_jwe_type (t : message_type) : bool := match t with DidCommJwe => true | _ => false end.
(** src/messages/message.rs:429 *)
Definition is_jws_type (t : message_type) : bool := match t with DidCommJws => true | _ => false end.

(** src/messages/message.rs:410-434 *)
Definition receive (E : env) (text : string) (sk sender_pk signing_pk : option string) : res message :=
  let? t := get_message_type (rt E 0) text in
  let? text :=
    (if is_jwe_type t then
       let? k := oerr sk (EGeneric "missing encryption recipient private key") in
       receive_jwe E text k sender_pk
     else Ok text) in
  let? t := get_message_type (rt E 4) text in
  let? text := (if is_jws_type t then receive_jws E text signing_pk else Ok text) in
  oerr (message_from_str (rt E 9) text) ESerde.

(** ** External crypto path *)

(** src/messages/message.rs:358-363; [rnd] are the 24 random bytes. *)
Definition export_for_encryption (rnd : string) (m : message) : res (string * string) :=
  let? iv := oerr (b64_decode (b64_encode rnd)) EBase64Decode in
  Ok (iv, message_json m).

(** src/messages/message.rs:374-396; [rnd] are the 24 random bytes of [ensure_iv]. *)
Definition seal_pre_encrypted (rnd : string) (m : message) (ciphertext : string) : res string :=
  let u := jh_with_skid jwm_default (dh_from (m_did m)) in
  let? u := match m_recipients m with
            | Some _ => Ok u
            | None => let? t := first_to (m_did m) in Ok (jh_with_kid u (Some t))
            end in
  Ok (jwe_json (jwe_new (Some u) (m_recipients m) ciphertext (Some (m_jwm m)) None None rnd)).

(** src/messages/message.rs:584-594 *)
Definition received_as_jwe (R : drt) (text : string) : option jwe :=
  match jwe_from_slice R text with
  | Some e => match jwe_get e jh_skid with Some _ => Some e | None => None end
  | None => None
  end.

(** src/messages/message.rs:602-604 *)
Definition receive_external_crypto (R : drt) (text : string) : res message := oerr (message_from_slice R text) ESerde.

(** Text before the first dot. src/messages/message.rs:548-551. *)
Fixpoint before_dot (s : string) : option string :=
  match s with
  | "" => None
  | String c r => if (code c =? 46)%N then Some "" else option_map (String c) (before_dot r)
  end.

(** src/messages/message.rs:545-571. [Value::get] on something that is not an object is [None]. *)
Definition get_iv (R : drt) (received : string) : res string :=
  if utf8_valid received then
    let? j :=
      match before_dot received with
      | Some h =>
          let? d := oerr (b64_decode h) EBase64Decode in
          if utf8_valid d then oerr (parse d) ESerde else Err EStringConversion
      | None => oerr (parse received) ESerde
      end in
    let? v := oerr (value_of R max_depth j) ESerde in
    let iv := match v with JObj es => map_get "iv" es | _ => None end in
    match iv with
    | Some (JStr _ t) =>
        if negb (String.length t =? 24)%nat then Err (EGeneric "IV [nonce] size is incorrect") else Ok t
    | Some _ => Err (EGeneric "wrong nonce format")
    | None => Err (EGeneric "iv is not found in JOSE header")
    end
  else Err EStringConversion.
