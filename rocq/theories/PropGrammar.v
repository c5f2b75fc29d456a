(** Properties C53, C54: JSON texts and UTF-8. *)

From Coq Require Import Ascii String Arith NArith List Bool Lia.
From Verif Require Import Bytes BytesFacts Utf8 Utf8Facts Json JsonFacts Value Types Message Envelope SpecText SpecJson GrammarFacts Spec SpecFacts CryptoLaws Examples.
Import ListNotations.
Local Open Scope string_scope.

(** ** C53 *)

(** [from_str] reads exactly the JSON texts of RFC 8259, and reads them as what they stand for. *)
Theorem C53_grammar : forall text j, parse text = Some j <-> document text j.
Proof. exact document_iff. Qed.
(** [from_slice] additionally wants UTF-8. *)
Theorem C53_grammar_slice : forall text j, parse_slice text = Some j <-> utf8_text text /\ document text j.
Proof.
  intros text j. unfold parse_slice. rewrite <- utf8_iff, <- document_iff. destruct (utf8_valid text).
  - split; [intros H; now split|now intros [_ H]].
  - split; [discriminate|intros [H _]; discriminate].
Qed.
(** A text stands for one tree only. *)
Theorem C53_unambiguous : forall text j j', document text j -> document text j' -> j = j'.
Proof. intros text j j' H H'. apply document_iff in H, H'. congruence. Qed.
(** What is printed for a value is a JSON text, and stands for that value. *)
Theorem C53_print : forall v, rust_value v -> document (print v) v.
Proof. intros v H. apply document_iff. apply parse_print. now apply rust_value_wf. Qed.
(** Number tokens are those of the RFC. *)
Theorem C53_numbers : forall t, json_number t <-> number_token t.
Proof. exact number_iff. Qed.

(** A surrogate pair, white space everywhere, an exponent. *)
Example C53_example : document " { ""ab"" : [ ""\ud83d\uDE00\/"" , -0.5E+07 , true ] } "
  (JObj [("ab", JArr [JStr true (String (chr 240) (String (chr 159) (String (chr 152) (String (chr 128) "/")))); JNum "-0.5E+07"; JBool true])]).
Proof. apply document_iff. vm_compute. reflexivity. Qed.
Definition ex_bad_texts : list string :=
  [""; "01"; "1."; ".5"; "+1"; "1e"; "[1,]"; "{""a"":1,}"; "{a:1}"; "'a'"; "nul"; "[1 2]"; "{""a"" 1}"; """\x""";
   """\ud83d"""; """\udc00\ud83d"""; String (chr 34) (String (chr 10) (String (chr 34) "")); "1 1"; "["; "]"].
Example C53_example_bad : forall t j, In t ex_bad_texts -> ~ document t j.
Proof.
  intros t j HI H. apply document_iff in H. revert H. assert (HN : parse t = None); [|now rewrite HN].
  assert (HF : Forall (fun t => parse t = None) ex_bad_texts) by (repeat (constructor; [vm_compute; reflexivity|]); constructor).
  rewrite Forall_forall in HF. now apply HF.
Qed.

(** ** C54 *)

(** The validity check accepts exactly concatenations of UTF-8 encoded characters. *)
Theorem C54_utf8 : forall s, rust_string s <-> utf8_text s.
Proof. exact utf8_iff. Qed.
(** Characters produced for escapes are encoded as UTF-8 wants it, and every character has one encoding. *)
Theorem C54_encode : forall n u, utf8_of n u <-> (n < 1114112)%N /\ ~ (55296 <= n <= 57343)%N /\ utf8_encode n = u.
Proof.
  intros n u. split; [intros H; apply u8_encode in H; tauto|]. intros [H1 [H2 <-]]. now apply encode_u8.
Qed.
(** Strings decoded from UTF-8 text are UTF-8 again, whatever escapes they contain. *)
Theorem C54_decoded_strings : forall t s e, utf8_text t -> document t (JStr e s) -> utf8_text s.
Proof. intros t s e HU H. apply utf8_iff in HU. apply utf8_iff. apply document_iff in H. exact (parse_utf8 t _ HU H). Qed.
(** And so are whole documents: every name and string in the tree. *)
Theorem C54_decoded_trees : forall t j s, utf8_text t -> document t j -> In s (json_strings j) -> utf8_text s.
Proof.
  intros t j s HU H HI. apply utf8_iff in HU. apply document_iff in H. apply utf8_iff. pose proof (parse_utf8 t _ HU H) as HJ.
  apply json_strings_utf8 in HJ. rewrite Forall_forall in HJ. now apply HJ.
Qed.
(** The empty string, two, three and four byte characters; then overlong forms, surrogates, too large, truncated, a lone continuation byte. *)
Definition bytes_of (l : list N) : string := string_of_list_ascii (map chr l).
Example C54_example : utf8_text (bytes_of [195; 164; 226; 130; 172; 240; 159; 152; 128; 65]%N).
Proof. apply utf8_iff. vm_compute. reflexivity. Qed.
Example C54_example_bad : forall l, In l [[192; 128]; [224; 159; 191]; [240; 143; 191; 191]; [237; 160; 128]; [244; 144; 128; 128]; [226; 130]; [128]; [255]]%N ->
  ~ utf8_text (bytes_of l).
Proof.
  intros l HI H. apply utf8_iff in H. revert H. cbn [In] in HI.
  repeat (destruct HI as [<-|HI]; [vm_compute; discriminate|]). destruct HI.
Qed.

Print Assumptions C53_grammar.
Print Assumptions C53_grammar_slice.
Print Assumptions C53_unambiguous.
Print Assumptions C53_print.
Print Assumptions C53_numbers.
Print Assumptions C54_utf8.
Print Assumptions C54_encode.
Print Assumptions C54_decoded_strings.
Print Assumptions C54_decoded_trees.
