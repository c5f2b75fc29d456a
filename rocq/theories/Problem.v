(** Problem reports. Definitions only. *)

From Coq Require Import Ascii String NArith List Bool.
From Verif Require Import Bytes Json Types Serde Regex.
Import ListNotations.
Local Open Scope string_scope.

(** src/messages/problem_report.rs:6-12 ([Default]) *)
Definition problem_default : problem := {| pr_code := ""; pr_comment := None; pr_args := []; pr_escalate_to := None |}.
(** A problem with a code and otherwise default fields: src/messages/problem_report.rs:21-24, 38-41 *)
Definition problem_with_code (c : string) : problem :=
  {| pr_code := c; pr_comment := pr_comment problem_default; pr_args := pr_args problem_default;
     pr_escalate_to := pr_escalate_to problem_default |}.

(** src/messages/problem_report.rs:18-30 *)
Definition from_code (code : string) : res problem :=
  if re_match problem_re code then Ok (problem_with_code code)
  else Err (EGeneric "Code badly formatted for this problem").

(** src/messages/problem_report.rs:71-101 *)
Inductive known_problem :=
| ProtocolError | TrustlError | CryptoTrusError | XferError | DidError | MsgError | MeErro | MeResError | ReqError
| ReqTimeError | LegalError
| ProtocolWarning | TrustWarning | CryptoTrustWarning | XferWarning | DidWarning | MsgWarning | MeWarning | MeResWarning
| ReqWarning | ReqTimeWarning | LegalWarning
| UnknownProblem.

(** Serialised variant names (src/messages/problem_report.rs:70, 99). *)
Definition known_problem_name (p : known_problem) : string :=
  match p with
  | ProtocolError => "ProtocolError" | TrustlError => "TrustlError" | CryptoTrusError => "CryptoTrusError"
  | XferError => "XferError" | DidError => "DidError" | MsgError => "MsgError" | MeErro => "MeErro"
  | MeResError => "MeResError" | ReqError => "ReqError" | ReqTimeError => "ReqTimeError" | LegalError => "LegalError"
  | ProtocolWarning => "ProtocolWarning" | TrustWarning => "TrustWarning" | CryptoTrustWarning => "CryptoTrustWarning"
  | XferWarning => "XferWarning" | DidWarning => "DidWarning" | MsgWarning => "MsgWarning" | MeWarning => "MeWarning"
  | MeResWarning => "MeResWarning" | ReqWarning => "ReqWarning" | ReqTimeWarning => "ReqTimeWarning"
  | LegalWarning => "LegalWarning"
  | UnknownProblem => "e.u.no-data"
  end.

(** src/messages/problem_report.rs:109-113: the JSON text of the variant, so including the quotes. *)
Definition known_problem_string (p : known_problem) : string := print (jstr (known_problem_name p)).

(** src/messages/problem_report.rs:37-42 *)
Definition from_known_problem (p : known_problem) : problem := problem_with_code (known_problem_string p).
