(** Properties C34, C35: problem codes and the DID part of DID URLs. *)

From Coq Require Import Ascii String Arith NArith List Bool Lia.
From Verif Require Import Bytes BytesFacts Regex Types Json Serde Problem Spec SpecText RegexFacts.
Import ListNotations.
Local Open Scope string_scope.

(** The matcher decides the language of every expression (used for both patterns). *)
Theorem C34_matcher : forall r s, re_match r s = true <-> lang r s.
Proof. intros r s. apply re_match_ok. Qed.

(** ** C34 *)

(** Accepted are exactly the problem codes; the code is kept verbatim and nothing else is set. *)
Theorem C34_from_code : forall s p, from_code s = Ok p <->
  problem_code s /\ p = {| pr_code := s; pr_comment := None; pr_args := []; pr_escalate_to := None |}.
Proof.
  intros s p. unfold from_code. destruct (re_match problem_re s) eqn:E.
  - apply problem_ok in E. split; [intros H; injection H as <-; now split|]. intros [_ ->]. reflexivity.
  - split; [discriminate|]. intros [H _]. apply problem_ok in H. congruence.
Qed.
Theorem C34_from_code_error : forall s, ~ problem_code s -> from_code s = Err (EGeneric "Code badly formatted for this problem").
Proof.
  intros s H. unfold from_code. destruct (re_match problem_re s) eqn:E; [|reflexivity]. apply problem_ok in E. contradiction.
Qed.
(** The vertical bar counts as a kind. *)
Theorem C34_bar : exists s, problem_code s /\ exists r, s = "|." ++ r.
Proof. exists "|.m.x". split; [apply problem_ok; vm_compute; reflexivity|]. now exists "m.x". Qed.
(** No code made by [from_known_problem] is accepted by [from_code]: they start with a quotation mark. *)
Theorem C34_known_not_accepted : forall k, exists r, pr_code (from_known_problem k) = String """" r /\
  from_code (pr_code (from_known_problem k)) = Err (EGeneric "Code badly formatted for this problem").
Proof. intros []; eexists; split; vm_compute; reflexivity. Qed.
(** Known problems are still told apart by their code. *)
Theorem C34_known_distinct : forall k k', pr_code (from_known_problem k) = pr_code (from_known_problem k') -> k = k'.
Proof. intros [] [] H; vm_compute in H; congruence. Qed.
Example C34_example : problem_code "e.msg.trust.crypto-x" /\ problem_code "w.req2.a-b.c" /\ ~ problem_code "e.msg.a-b.c.d" /\ ~ problem_code "e..x"
  /\ ~ problem_code "e.MSG.x".
Proof. repeat split; rewrite <- problem_ok; vm_compute; congruence. Qed.

(** ** C35 *)

Theorem C35_did_url : forall s d, did_url s d -> did_of_url s = d.
Proof. exact did_of_url_some. Qed.
Theorem C35_not_did_url : forall s, (forall d, ~ did_url s d) -> did_of_url s = "".
Proof. exact did_of_url_none. Qed.
(** So the result is the DID part or empty. *)
Theorem C35_cases : forall s, did_url s (did_of_url s) \/ (did_of_url s = "" /\ forall d, ~ did_url s d).
Proof.
  intros s. destruct (did_url_dec s) as [[d H]|H]; [left|right; split; [now apply did_of_url_none|exact H]].
  now rewrite (did_of_url_some s d H).
Qed.
(** The DID part is what stands before the first of the characters / ? #. *)
Theorem C35_prefix : forall s d, did_url s d ->
  (forall c, In c (list_ascii_of_string d) -> c <> "/"%char /\ c <> "?"%char /\ c <> "#"%char) /\
  (s = d \/ exists c r, s = d ++ String c r /\ (c = "/"%char \/ c = "?"%char \/ c = "#"%char)).
Proof.
  intros s d H. apply did_url_iff in H. destruct H as [HD [t [HT ->]]]. split.
  - intros c HC. pose proof (did_no_end d HD c HC) as HN. unfold ends_did in HN. tauto.
  - destruct (tail_starts t HT) as [->|[c [r [-> HE]]]]; [left; apply sapp_nil_r|right; eauto].
Qed.
Theorem C35_idempotent : forall s, did_of_url (did_of_url s) = did_of_url s.
Proof.
  intros s. destruct (C35_cases s) as [H|[H _]].
  - apply did_of_url_some. apply did_url_self. apply H.
  - rewrite H. apply did_of_url_none. intros d HD. apply did_url_iff in HD. destruct HD as [HD [t [_ E]]]. destruct d; [|discriminate].
    now apply did_not_empty in HD.
Qed.
(** Distinct DIDs can only collapse to the empty kid. *)
Theorem C35_injective_on_dids : forall d d', did d -> did d' -> did_of_url d = did_of_url d' -> d = d'.
Proof. intros d d' H H' E. rewrite (did_of_url_some d d (did_url_self d H)), (did_of_url_some d' d' (did_url_self d' H')) in E. exact E. Qed.
(** Method-specific ids with several parts are only recognised when all but the last part are lower case letters: for
    common did:web identifiers the kid is empty. *)
Theorem C35_web_refuted : exists s, s = "did:web:example.com:user:alice" /\ forall d, ~ did_url s d.
Proof.
  eexists. split; [reflexivity|]. intros d H. pose proof (did_of_url_some _ d H) as E. vm_compute in E. subst d.
  destruct H as [H _]. now apply did_not_empty in H.
Qed.
Example C35_example : did_url "did:key:z6Mk/path?query#fragment" "did:key:z6Mk" /\ did_of_url "did:key:z6Mk/path?query#fragment" = "did:key:z6Mk" /\
  did_url "did:web:user:alice" "did:web:user:alice".
Proof.
  repeat split; try (vm_compute; reflexivity); try (apply did_re_ok; vm_compute; reflexivity).
  - exists "/path", "?query", "#fragment". split; [right; exists "path"; split; [reflexivity|]|split; [right; exists "query"; split; [reflexivity|]|split; [right; exists "fragment"; split; [reflexivity|]|reflexivity]]];
      intros c HC; cbn in HC; repeat (destruct HC as [<-|HC]; [repeat split; discriminate|]); destruct HC.
  - exists "", "", "". auto.
Qed.

Print Assumptions C34_matcher.
Print Assumptions C34_from_code.
Print Assumptions C34_from_code_error.
Print Assumptions C34_bar.
Print Assumptions C34_known_not_accepted.
Print Assumptions C34_known_distinct.
Print Assumptions C35_did_url.
Print Assumptions C35_not_did_url.
Print Assumptions C35_cases.
Print Assumptions C35_prefix.
Print Assumptions C35_idempotent.
Print Assumptions C35_injective_on_dids.
Print Assumptions C35_web_refuted.
