(** The lines that [seal] and [receive] write to the log (crate log, Cargo.toml:40) at level trace. Left out: what the logger puts around
    the lines, and the line of level error at src/messages/message_raw_crypto.rs:121. *)

From Coq Require Import Ascii String Arith NArith List Bool.
From Verif Require Import Bytes Base64 Json Value Types Serde Message ChaCha Sha256 Envelope.
Import ListNotations.
Local Open Scope nat_scope.
Local Open Scope string_scope.

(** The texts that {:?} gives for a [str] (escapes) and for a [PublicKey] of x25519-dalek are left open
    (src/messages/helpers/encryption.rs:141-146, 306-311). *)
Record formats := { f_str : string -> string; f_key : string -> string }.

(** The numbers of a slice, separated as {:?} does (src/messages/helpers/encryption.rs:57). *)
Fixpoint debug_items (s : string) : string :=
  match s with
  | "" => ""
  | String c "" => dec_of_N (code c)
  | String c r => dec_of_N (code c) ++ ", " ++ debug_items r
  end.
(** A slice or vector of bytes with {:?} (src/messages/helpers/encryption.rs:57, 61; src/messages/message.rs:509) *)
Definition debug_bytes (s : string) : string := "[" ++ debug_items s ++ "]".

(** src/messages/helpers/encryption.rs:305-319 *)
Definition log_kek (F : formats) (E : env) (did sk ze alg : string) (pk : option string) : list string :=
  match shared_for E sk did pk with
  | Ok shared =>
      ("sk: " ++ debug_bytes sk ++ " shared: " ++ debug_bytes shared ++ " dest: " ++ f_str F did)
      :: ("shared_secret: " ++ debug_bytes (ze ++ shared))
      :: match concat_kdf (ze ++ shared) alg None None with
         | Ok kek => ["kek: " ++ debug_bytes kek]
         | _ => []
         end
  | _ => []
  end.

(** src/messages/helpers/encryption.rs:160-201: [from_slice] panics if the nonce has another length. *)
Definition log_nonce (n : nat) (iv : string) : list string :=
  ("iv: " ++ debug_bytes iv) :: match exact_len n iv with Ok x => ["nonce: " ++ debug_bytes x] | _ => [] end.

(** src/messages/helpers/encryption.rs:122-201 *)
Definition log_encrypt_cek (F : formats) (E : env) (rr : rec_rand) (m : message) (sk dest : string) (pk : option string) : list string :=
  ("creating per-recipient JWE value for " ++ dest) ::
  match jh_alg (m_jwm m) with
  | None => []
  | Some alg =>
      ("using algorithm " ++ alg) ::
      match shared_for E (rr_esk rr) dest pk with
      | Ok ze =>
          ("ze: " ++ debug_bytes ze ++ " epk_public: " ++ f_key F (x_pub E (rr_esk rr)) ++ ", dest: " ++ f_str F dest) ::
          app (log_kek F E dest sk ze alg pk)
            match generate_kek E dest sk ze alg pk with
            | Ok kek =>
                ("kek: " ++ debug_bytes kek) ::
                (if String.eqb alg "ECDH-1PU+A256KW" then log_nonce 12 (rr_iv rr 12)
                 else if String.eqb alg "ECDH-1PU+XC20PKW" then log_nonce 24 (rr_iv rr 24)
                 else [])
            | _ => []
            end
      | _ => []
      end
  end.

(** src/messages/message.rs:519-528: the loop ends with the first error. *)
Fixpoint log_loop (F : formats) (E : env) (rnd : nat -> rec_rand) (m : message) (sk : string) (i : nat)
    (dests : list string) (pks : list (option string)) : list string :=
  match dests, pks with
  | d :: ds, p :: ps =>
      app (log_encrypt_cek F E (rnd i) m sk d p)
        match encrypt_cek E (rnd i) m sk d seal_cek p with Ok _ => log_loop F E rnd m sk (S i) ds ps | _ => [] end
  | _, _ => []
  end.

(** src/messages/message.rs:485-535 *)
Definition log_seal (F : formats) (E : env) (rnd : seal_rand) (m : message) (sk : string) (keys : option (list (option string))) : list string :=
  if negb (String.length sk =? 32)%nat then [] else
  let to := dh_to (m_did m) in
  let rest (pks : list (option string)) :=
    ("sealing message with shared_key: " ++ debug_bytes seal_cek) ::
    (if (List.length to =? 0)%nat then []
     else if (m_flat_jwe m && (1 <? List.length to)%nat)%bool then []
     else log_loop F E (sr_rec rnd) m sk 0 to pks) in
  match keys with
  | Some l => if negb (List.length l =? List.length to)%nat then [] else rest l
  | None => rest (repeat None (List.length to))
  end.

(** src/messages/message.rs:621-637: signing writes nothing. *)
Definition log_seal_signed (F : formats) (E : env) (rnd : seal_rand) (m : message) (sk : string) (keys : option (list (option string)))
    (sa : signature_algorithm) (ssk : string) : list string :=
  match (let? signed := sign (as_jws m sa) (signer E sa) ssk in
         let? j := oerr (parse signed) ESerde in
         oerr (value_of (rt E 0) max_depth j) ESerde) with
  | Ok b => log_seal F E rnd (set_typ (with_body m b) DidCommJws) sk keys
  | _ => []
  end.

(** src/messages/helpers/encryption.rs:29-61 *)
Definition log_decrypt_cek (F : formats) (E : env) (e : jwe) (sk : string) (r : recipient) (pk : option string) : list string :=
  "decrypting per-recipient JWE value" ::
  match jwe_get e jh_alg with
  | None => []
  | Some alg =>
      ("using algorithm " ++ alg) ::
      match (let? skid := oerr (jwe_get e jh_skid) (EGeneric "missing 'skid' in header") in
             let? ek := oerr (jk_epk (rc_header r)) (EGeneric "JWM header is missing epk") in
             let? epub := oerr (b64_decode (ep_x ek)) EBase64Decode in
             if negb (String.length epub =? 32)%nat then Err (EGeneric "failed to decode epk public key") else
             let? s := arr32 sk in
             Ok (skid, x_dh E s epub)) with
      | Ok (skid, ze) =>
          ("ze: " ++ debug_bytes ze) ::
          app (log_kek F E skid sk ze alg pk)
            match generate_kek E skid sk ze alg pk with Ok kek => ["kek: " ++ debug_bytes kek] | _ => [] end
      | _ => []
      end
  end.

(** src/messages/helpers/receive.rs:99-112: until an entry decrypts. *)
Fixpoint log_find_cek (F : formats) (E : env) (e : jwe) (sk : string) (pk : option string) (l : list recipient) : list string :=
  match l with
  | [] => []
  | r :: rest =>
      app (log_decrypt_cek F E e sk r pk)
        match decrypt_cek E e sk r pk with Err _ => log_find_cek F E e sk pk rest | _ => [] end
  end.

(** src/messages/helpers/receive.rs:53-122 *)
Definition log_receive_jwe (F : formats) (E : env) (text sk : string) (sender_pk : option string) : list string :=
  match (let? e := oerr (jwe_from_str (rt E 1) text) ESerde in
         let? alg := oerr (jwe_get e jh_alg) (EGeneric "missing algorithm in JWE header(s)") in
         let? pk :=
           match sender_pk with
           | Some k => Ok k
           | None =>
               let? skid := oerr (jwe_get e jh_skid) (EGeneric "skid missing") in
               let? doc := oerr (resolve E skid) EDidResolveFailed in
               oerr (doc_key doc "X25519") EBadDid
           end in
         let? s := arr32 sk in
         let? p := arr32 pk in
         let? a := crypto_alg_of alg in
         Ok (jwe_recipients e, e)) with
  | Ok (Some l, e) => log_find_cek F E e sk sender_pk l
  | _ => []
  end.

(** src/messages/message.rs:410-436: the other steps write nothing at this level. *)
Definition log_receive (F : formats) (E : env) (text : string) (sk : option string) (sender_pk : option string) : list string :=
  match get_message_type (rt E 0) text, sk with
  | Ok t, Some s => if is_jwe_type t then log_receive_jwe F E text s sender_pk else []
  | _, _ => []
  end.
