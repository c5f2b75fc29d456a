(** base64url codec: crate base64-url 1.4 (Cargo.toml:22), which calls crate base64 0.13 with
    URL_SAFE_NO_PAD.  Used at src/messages/helpers/serialization.rs:7-14,27-41,
    src/messages/jwe.rs:78,81,110-121,150, src/messages/message_raw_crypto.rs:45,107,116,144-146,
    src/messages/helpers/encryption.rs:51,68,76-77,204-216, src/messages/attachment.rs:102. *)

From Coq Require Import Ascii String NArith List Bool.
From Verif Require Import Bytes.
Local Open Scope string_scope.
Local Open Scope N_scope.

(** Alphabet A-Z a-z 0-9 - _ . Crate base64-url (Cargo.toml:22; src/messages/helpers/serialization.rs:7,13). *)
Definition enc6 (n : N) : ascii :=
  if n <? 26 then chr (65 + n)
  else if n <? 52 then chr (71 + n)
  else if n <? 62 then chr (n - 4)
  else if n =? 62 then "-"%char else "_"%char.

(** Crate base64-url (Cargo.toml:22; src/messages/helpers/serialization.rs:7,13). *)
Definition dec6 (c : ascii) : option N :=
  let n := code c in
  if (65 <=? n) && (n <=? 90) then Some (n - 65)
  else if (97 <=? n) && (n <=? 122) then Some (n - 71)
  else if (48 <=? n) && (n <=? 57) then Some (n + 4)
  else if n =? 45 then Some 62
  else if n =? 95 then Some 63
  else None.

(** [base64_url::encode]: no padding. Crate base64-url (Cargo.toml:22; src/messages/helpers/serialization.rs:7,13). *)
Fixpoint b64_encode (s : string) : string :=
  match s with
  | "" => ""
  | String a "" =>
      let x := code a in
      String (enc6 (x / 4)) (String (enc6 ((x mod 4) * 16)) "")
  | String a (String b "") =>
      let x := code a in let y := code b in
      String (enc6 (x / 4)) (String (enc6 ((x mod 4) * 16 + y / 16))
        (String (enc6 ((y mod 16) * 4)) ""))
  | String a (String b (String c r)) =>
      let x := code a in let y := code b in let z := code c in
      String (enc6 (x / 4)) (String (enc6 ((x mod 4) * 16 + y / 16))
        (String (enc6 ((y mod 16) * 4 + z / 64)) (String (enc6 (z mod 64)) (b64_encode r))))
  end.

(** Last group of two symbols: one byte; the unused low bits must be zero (base64 0.13 decode.rs, InvalidLastSymbol).
    Crate base64-url (Cargo.toml:22; src/messages/helpers/serialization.rs:7,13). *)
Definition dec_two (c1 c2 : ascii) : option string :=
  match dec6 c1, dec6 c2 with
  | Some u, Some v => if v mod 16 =? 0 then Some (String (chr (u * 4 + v / 16)) "") else None
  | _, _ => None
  end.

(** Last group of three symbols: two bytes. Crate base64-url (Cargo.toml:22;
    src/messages/helpers/serialization.rs:7,13). *)
Definition dec_three (c1 c2 c3 : ascii) : option string :=
  match dec6 c1, dec6 c2, dec6 c3 with
  | Some u, Some v, Some w =>
      if w mod 4 =? 0
      then Some (String (chr (u * 4 + v / 16)) (String (chr ((v mod 16) * 16 + w / 4)) ""))
      else None
  | _, _, _ => None
  end.

(** [base64_url::decode]. base64 0.13 accepts optional [=] padding at the third and fourth place of the last group
    even with a no-pad configuration; length 1 mod 4 is an error. Crate base64-url (Cargo.toml:22;
    src/messages/helpers/serialization.rs:7,13). *)
Fixpoint b64_decode (s : string) : option string :=
  match s with
  | "" => Some ""
  | String c1 (String c2 "") => dec_two c1 c2
  | String c1 (String c2 (String c3 "")) =>
      if Ascii.eqb c3 "=" then dec_two c1 c2 else dec_three c1 c2 c3
  | String c1 (String c2 (String c3 (String c4 r))) =>
      match dec6 c1, dec6 c2, dec6 c3, dec6 c4 with
      | Some u, Some v, Some w, Some x =>
          match b64_decode r with
          | Some t => Some (String (chr (u * 4 + v / 16)) (String (chr ((v mod 16) * 16 + w / 4))
                             (String (chr ((w mod 4) * 64 + x)) t)))
          | None => None
          end
      | _, _, _, _ =>
          match r with
          | "" => if Ascii.eqb c4 "="
                  then if Ascii.eqb c3 "=" then dec_two c1 c2 else dec_three c1 c2 c3
                  else None
          | _ => None
          end
      end
  | _ => None
  end.
