(** UTF-8 validity ([std::str::from_utf8], [String::from_utf8]; used at src/messages/out_of_band.rs:28,
    src/messages/message.rs:547-551, and inside [serde_json::from_slice]) and encoding of a code point
    ([char::encode_utf8], used by serde_json for the u-escapes of JSON strings). *)

From Coq Require Import Ascii String NArith List Bool.
From Verif Require Import Bytes.
Local Open Scope string_scope.
Local Open Scope N_scope.

(** State of the validator: [U0] between characters; [Un lo hi k]: next byte must be in [lo,hi], then [k] further
    continuation bytes (80..BF) follow. src/messages/out_of_band.rs:28, src/messages/message.rs:547. *)
Inductive ustate := U0 | Un (lo hi : N) (k : nat).

(** One byte. The table is the one of RFC 3629 / Unicode table 3-7, as in core::str::validations.
    src/messages/out_of_band.rs:28, src/messages/message.rs:547. *)
Definition ustep (st : ustate) (c : ascii) : option ustate :=
  let n := code c in
  match st with
  | U0 =>
      if n <? 128 then Some U0
      else if (194 <=? n) && (n <=? 223) then Some (Un 128 191 0)
      else if n =? 224 then Some (Un 160 191 1)
      else if (225 <=? n) && (n <=? 236) then Some (Un 128 191 1)
      else if n =? 237 then Some (Un 128 159 1)
      else if (238 <=? n) && (n <=? 239) then Some (Un 128 191 1)
      else if n =? 240 then Some (Un 144 191 2)
      else if (241 <=? n) && (n <=? 243) then Some (Un 128 191 2)
      else if n =? 244 then Some (Un 128 143 2)
      else None
  | Un lo hi k =>
      if (lo <=? n) && (n <=? hi)
      then match k with O => Some U0 | S k' => Some (Un 128 191 k') end
      else None
  end.

(** All bytes of a string (src/messages/out_of_band.rs:28, src/messages/message.rs:547). *)
Fixpoint urun (st : ustate) (s : string) : option ustate :=
  match s with
  | "" => Some st
  | String c r => match ustep st c with Some st' => urun st' r | None => None end
  end.

(** [std::str::from_utf8] succeeds: src/messages/out_of_band.rs:28, src/messages/message.rs:547,
    src/messages/headers/prior_claims.rs:25. *)
Definition utf8_valid (s : string) : bool :=
  match urun U0 s with Some U0 => true | _ => false end.

(** UTF-8 encoding of a code point below 0x110000. serde_json (Cargo.toml:21). *)
Definition utf8_encode (n : N) : string :=
  if n <? 128 then String (chr n) ""
  else if n <? 2048 then String (chr (192 + n / 64)) (String (chr (128 + n mod 64)) "")
  else if n <? 65536 then
    String (chr (224 + n / 4096)) (String (chr (128 + (n / 64) mod 64)) (String (chr (128 + n mod 64)) ""))
  else
    String (chr (240 + n / 262144)) (String (chr (128 + (n / 4096) mod 64))
      (String (chr (128 + (n / 64) mod 64)) (String (chr (128 + n mod 64)) ""))).
