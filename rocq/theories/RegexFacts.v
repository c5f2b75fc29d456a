(** The matcher decides the language of an expression; the two patterns of the crate mean what SpecText.v says. *)

From Coq Require Import Ascii String Arith NArith List Bool Lia.
From Verif Require Import Bytes BytesFacts Regex Types Json Serde Problem SpecText.
Import ListNotations.
Local Open Scope string_scope.

(** ** Matching *)

Lemma lang_emp : forall s, ~ lang REmp s.
Proof. intros s H. inversion H. Qed.
Lemma lang_eps : forall s, lang REps s <-> s = "".
Proof. intros s. split; [intros H; now inversion H|intros ->; constructor]. Qed.
Lemma lang_cls : forall f s, lang (RCls f) s <-> exists c, f c = true /\ s = String c "".
Proof. intros f s. split; [intros H; inversion H; subst; eauto|intros [c [H ->]]; now constructor]. Qed.
Lemma lang_seq : forall a b s, lang (RSeq a b) s <-> exists x y, lang a x /\ lang b y /\ s = x ++ y.
Proof. intros a b s. split; [intros H; inversion H; subst; eauto 6|intros [x [y [H1 [H2 ->]]]]; now constructor]. Qed.
Lemma lang_alt : forall a b s, lang (RAlt a b) s <-> lang a s \/ lang b s.
Proof. intros a b s. split; [intros H; inversion H; subst; auto|intros [H|H]; [now apply l_left|now apply l_right]]. Qed.
Lemma nullable_ok : forall r, nullable r = true <-> lang r "".
Proof.
  induction r as [| |f|a IHa b IHb|a IHa b IHb|a IHa]; cbn [nullable].
  - split; [discriminate|intros H; inversion H].
  - split; [constructor|reflexivity].
  - split; [discriminate|intros H; inversion H].
  - rewrite andb_true_iff, IHa, IHb, lang_seq. split.
    + intros [H1 H2]. exists "", "". auto.
    + intros [x [y [H1 [H2 E]]]]. destruct x, y; try discriminate. auto.
  - rewrite orb_true_iff, IHa, IHb, lang_alt. tauto.
  - split; [constructor|reflexivity].
Qed.
Lemma star_cons : forall a c s, lang (RStar a) (String c s) <-> exists x y, lang a (String c x) /\ lang (RStar a) y /\ s = x ++ y.
Proof.
  intros a c s. split.
  - intros H. remember (RStar a) as r eqn:Er. remember (String c s) as w eqn:Ew. revert c s Ew Er.
    induction H as [| | | | |a'|a' x y H1 IH1 H2 IH2]; intros c0 s0 Ew Er; try discriminate. injection Er as ->.
    destruct x as [|c' x].
    + cbn in Ew. apply IH2; [exact Ew|reflexivity].
    + cbn in Ew. injection Ew as <- <-. exists x, y. auto.
  - intros [x [y [H1 [H2 ->]]]]. apply (l_more a (String c x) y H1 H2).
Qed.
Lemma deriv_ok : forall r c s, lang (deriv c r) s <-> lang r (String c s).
Proof.
  induction r as [| |f|a IHa b IHb|a IHa b IHb|a IHa]; intros c s; cbn [deriv].
  - split; intros H; inversion H.
  - split; intros H; inversion H.
  - rewrite lang_cls. destruct (f c) eqn:Ef.
    + rewrite lang_eps. split; [intros ->; now exists c|]. intros [c' [_ E]]. now injection E as _ ->.
    + split; [intros H; inversion H|]. intros [c' [H E]]. injection E as <- ->. congruence.
  - assert (HS : lang (RSeq (deriv c a) b) s <-> exists x y, lang a (String c x) /\ lang b y /\ s = x ++ y).
    { rewrite lang_seq. split; intros [x [y [H1 H2]]]; exists x, y; (split; [now apply IHa|exact H2]). }
    rewrite lang_seq. destruct (nullable a) eqn:En.
    + rewrite lang_alt, HS, IHb. split.
      * intros [[x [y [H1 [H2 ->]]]]|H]; [exists (String c x), y; auto|]. exists "", (String c s). apply nullable_ok in En. auto.
      * intros [[|c' x] [y [H1 [H2 E]]]]; cbn in E; [right; now subst y|]. injection E as <- ->. left. eauto.
    + rewrite HS. split.
      * intros [x [y [H1 [H2 ->]]]]. exists (String c x), y. auto.
      * intros [[|c' x] [y [H1 [H2 E]]]]; cbn in E; [apply nullable_ok in H1; congruence|]. injection E as <- ->. eauto.
  - rewrite !lang_alt, IHa, IHb. tauto.
  - rewrite lang_seq, star_cons. split; intros [x [y [H1 H2]]]; exists x, y; (split; [now apply IHa|exact H2]).
Qed.
Lemma re_match_ok : forall s r, re_match r s = true <-> lang r s.
Proof.
  induction s as [|c s IH]; intros r; cbn [re_match]; [apply nullable_ok|]. now rewrite IH, deriv_ok.
Qed.

(** ** Derived forms *)

Lemma lang_opt : forall r s, lang (ROpt r) s <-> s = "" \/ lang r s.
Proof. intros r s. unfold ROpt. now rewrite lang_alt, lang_eps. Qed.
Lemma is_char_eq : forall n c, (n < 256)%N -> is_char n c = true <-> c = chr n.
Proof.
  intros n c H. unfold is_char. rewrite N.eqb_eq. split; [intros E; symmetry; rewrite <- E; apply chr_code|]. intros ->. now apply code_chr.
Qed.
Lemma lang_lit : forall l s, lang (RLit l) s <-> s = l.
Proof.
  induction l as [|c l IH]; intros s; cbn [RLit]; [apply lang_eps|]. rewrite lang_seq. split.
  - intros [x [y [H1 [H2 ->]]]]. apply lang_cls in H1. destruct H1 as [c' [E ->]]. apply Ascii.eqb_eq in E. subst c'. apply IH in H2. now subst y.
  - intros ->. exists (String c ""), l. rewrite lang_cls, IH. repeat split. exists c. now rewrite Ascii.eqb_refl.
Qed.
Lemma all_chars_nil : forall P, all_chars P "".
Proof. intros P c H. destruct H. Qed.
Lemma all_chars_cons : forall P c s, all_chars P (String c s) <-> P c /\ all_chars P s.
Proof.
  intros P c s. unfold all_chars. cbn [list_ascii_of_string In]. split.
  - intros H. split; [apply H; now left|]. intros x Hx. apply H. now right.
  - intros [H1 H2] x [<-|Hx]; auto.
Qed.
Lemma all_chars_app : forall P s t, all_chars P (s ++ t) <-> all_chars P s /\ all_chars P t.
Proof.
  intros P s t. induction s as [|c s IH]; cbn [append].
  - split; [intros H; split; [apply all_chars_nil|exact H]|tauto].
  - rewrite !all_chars_cons, IH. tauto.
Qed.
Lemma all_chars_impl : forall (P Q : ascii -> Prop) s, (forall c, P c -> Q c) -> all_chars P s -> all_chars Q s.
Proof. intros P Q s H HA c HC. auto. Qed.
Lemma lang_star_cls : forall f (P : ascii -> Prop), (forall c, f c = true <-> P c) -> forall s, lang (RStar (RCls f)) s <-> all_chars P s.
Proof.
  intros f P HF. induction s as [|c s IH].
  - split; [intros _; apply all_chars_nil|constructor].
  - rewrite star_cons, all_chars_cons, <- IH, <- HF. split.
    + intros [x [y [H1 [H2 ->]]]]. apply lang_cls in H1. destruct H1 as [c' [E1 E2]]. injection E2 as <- ->. auto.
    + intros [H1 H2]. exists "", s. rewrite lang_cls. repeat split; [|exact H2]. now exists c.
Qed.
Lemma lang_plus_cls : forall f (P : ascii -> Prop), (forall c, f c = true <-> P c) -> forall s, lang (RPlus (RCls f)) s <-> s <> "" /\ all_chars P s.
Proof.
  intros f P HF s. unfold RPlus. rewrite lang_seq. split.
  - intros [x [y [H1 [H2 ->]]]]. apply lang_cls in H1. destruct H1 as [c [E ->]]. apply (lang_star_cls f P HF) in H2. split; [discriminate|].
    apply all_chars_cons. split; [now apply HF|exact H2].
  - intros [N H]. destruct s as [|c s]; [congruence|]. apply all_chars_cons in H. destruct H as [H1 H2]. exists (String c ""), s.
    rewrite lang_cls, (lang_star_cls f P HF). repeat split; [|exact H2]. exists c. split; [now apply HF|reflexivity].
Qed.
Lemma lang_upto_cls : forall f (P : ascii -> Prop), (forall c, f c = true <-> P c) -> forall n s,
  lang (RUpTo n (RCls f)) s <-> String.length s <= n /\ all_chars P s.
Proof.
  intros f P HF. induction n as [|n IH]; intros s; cbn [RUpTo].
  - rewrite lang_eps. split; [intros ->; split; [cbn; lia|apply all_chars_nil]|]. intros [H _]. destruct s; [reflexivity|cbn in H; lia].
  - rewrite lang_opt, lang_seq. split.
    + intros [->|[x [y [H1 [H2 ->]]]]]; [split; [cbn; lia|apply all_chars_nil]|]. apply lang_cls in H1. destruct H1 as [c [E ->]].
      apply IH in H2. cbn [append String.length]. rewrite all_chars_cons. destruct H2 as [H2 H3]. split; [lia|]. split; [now apply HF|exact H3].
    + intros [H1 H2]. destruct s as [|c s]; [now left|]. right. cbn [String.length] in H1. apply all_chars_cons in H2. destruct H2 as [H2 H3].
      exists (String c ""), s. rewrite lang_cls, IH. repeat split; [|lia|exact H3]. exists c. split; [now apply HF|reflexivity].
Qed.
Lemma lang_chr : forall n s, (n < 256)%N -> lang (RChr n) s <-> s = String (chr n) "".
Proof.
  intros n s H. unfold RChr. rewrite lang_cls. split; [intros [c [E ->]]; apply is_char_eq in E; [now subst c|exact H]|].
  intros ->. exists (chr n). split; [now apply is_char_eq|reflexivity].
Qed.

(** ** Character classes *)

Lemma range_between : forall lo hi c, in_range (N_of_ascii lo) (N_of_ascii hi) c = true <-> between lo hi c.
Proof. intros lo hi c. unfold in_range, between, code. rewrite andb_true_iff, !N.leb_le. tauto. Qed.
Lemma lower_ok : forall c, lower c = true <-> lower_letter c.
Proof. intros c. apply (range_between "a" "z" c). Qed.
Lemma upper_ok : forall c, upper c = true <-> between "A" "Z" c.
Proof. intros c. apply (range_between "A" "Z" c). Qed.
Lemma digit_ok : forall c, is_digit c = true <-> digit c.
Proof. intros c. unfold is_digit, digit, between, code. change (N_of_ascii "0") with 48%N. change (N_of_ascii "9") with 57%N. rewrite andb_true_iff, !N.leb_le. tauto. Qed.
Ltac chars := rewrite ?orb_true_iff, ?andb_true_iff, ?negb_true_iff, ?lower_ok, ?upper_ok, ?digit_ok, ?is_char_eq by (vm_compute; reflexivity).
Lemma word_cls : forall c, (is_char 45 c || lower c || upper c)%bool = true <-> letter c \/ c = "-"%char.
Proof. intros c. chars. unfold letter, lower_letter. change (chr 45) with "-"%char. tauto. Qed.
Lemma letter_cls : forall c, (lower c || upper c)%bool = true <-> letter c.
Proof. intros c. chars. unfold letter, lower_letter. tauto. Qed.
Lemma scope_cls : forall c, (lower c || is_digit c)%bool = true <-> lower_letter c \/ digit c.
Proof. intros c. chars. tauto. Qed.
Lemma did_cls : forall c, (lower c || upper c || is_digit c || is_char 46 c || is_char 45 c || is_char 95 c || is_char 37 c)%bool = true <-> did_char c.
Proof.
  intros c. chars. unfold did_char, letter, lower_letter. change (chr 46) with "."%char. change (chr 45) with "-"%char. change (chr 95) with "_"%char.
  change (chr 37) with "%"%char. tauto.
Qed.

(** ** Problem codes *)

Lemma letters_word : forall x, all_chars letter x -> word x.
Proof. intros x. apply all_chars_impl. auto. Qed.
Lemma dot_opt : forall s, lang (ROpt (RChr 46)) s <-> s = "" \/ s = ".".
Proof. intros s. rewrite lang_opt, lang_chr by reflexivity. reflexivity. Qed.
Lemma tail_ok : forall t,
  lang (RSeq (RStar (RCls (fun c => lower c || upper c)%bool)) (RSeq (ROpt (RChr 46)) (RSeq (RStar (RCls (fun c => is_char 45 c || lower c || upper c)%bool))
    (RSeq (ROpt (RChr 46)) (RStar (RCls (fun c => is_char 45 c || lower c || upper c)%bool)))))) t <-> problem_tail t.
Proof.
  intros t. split.
  - intros H. apply lang_seq in H. destruct H as [x [t1 [HX [H ->]]]]. apply lang_seq in H. destruct H as [d1 [t2 [HD1 [H ->]]]].
    apply lang_seq in H. destruct H as [y [t3 [HY [H ->]]]]. apply lang_seq in H. destruct H as [d2 [z [HD2 [HZ ->]]]].
    apply (lang_star_cls _ _ letter_cls) in HX. apply (lang_star_cls _ _ word_cls) in HY, HZ. apply dot_opt in HD1, HD2.
    destruct HD1 as [->| ->], HD2 as [->| ->]; cbn [append].
    + apply pt_one. apply all_chars_app. split; [now apply letters_word|]. apply all_chars_app. now split.
    + change (String "." z) with ("." ++ z). rewrite <- sapp_assoc. apply pt_two; [|exact HZ]. apply all_chars_app. split; [now apply letters_word|exact HY].
    + change (String "." (y ++ z)) with ("." ++ (y ++ z)). apply pt_two; [now apply letters_word|]. apply all_chars_app. now split.
    + change (x ++ "." ++ y ++ "." ++ z) with (x ++ "." ++ y ++ "." ++ z). now apply pt_three.
  - intros H. apply lang_seq. destruct H as [x HX|x y HX HY|x y z HX HY HZ].
    + exists "", x. rewrite (lang_star_cls _ _ letter_cls). split; [apply all_chars_nil|]. split; [|reflexivity]. apply lang_seq. exists "", x.
      rewrite dot_opt. split; [now left|]. split; [|reflexivity]. apply lang_seq. exists x, "". rewrite (lang_star_cls _ _ word_cls).
      split; [exact HX|]. split; [|now rewrite sapp_nil_r]. apply lang_seq. exists "", "". rewrite dot_opt, (lang_star_cls _ _ word_cls).
      split; [now left|]. split; [apply all_chars_nil|reflexivity].
    + exists "", (x ++ "." ++ y). rewrite (lang_star_cls _ _ letter_cls). split; [apply all_chars_nil|]. split; [|reflexivity]. apply lang_seq. exists "", (x ++ "." ++ y).
      rewrite dot_opt. split; [now left|]. split; [|reflexivity]. apply lang_seq. exists x, ("." ++ y). rewrite (lang_star_cls _ _ word_cls).
      split; [exact HX|]. split; [|reflexivity]. apply lang_seq. exists ".", y. rewrite dot_opt, (lang_star_cls _ _ word_cls).
      split; [now right|]. split; [exact HY|reflexivity].
    + exists x, ("." ++ y ++ "." ++ z). rewrite (lang_star_cls _ _ letter_cls). split; [exact HX|]. split; [|reflexivity]. apply lang_seq. exists ".", (y ++ "." ++ z).
      rewrite dot_opt. split; [now right|]. split; [|reflexivity]. apply lang_seq. exists y, ("." ++ z). rewrite (lang_star_cls _ _ word_cls).
      split; [exact HY|]. split; [|reflexivity]. apply lang_seq. exists ".", z. rewrite dot_opt, (lang_star_cls _ _ word_cls).
      split; [now right|]. split; [exact HZ|reflexivity].
Qed.
Lemma scope_ok : forall s, lang (RSeq (RCls (fun c => lower c || is_digit c)%bool) (RUpTo 31 (RCls (fun c => lower c || is_digit c)%bool))) s <->
  1 <= String.length s <= 32 /\ all_chars (fun c => lower_letter c \/ digit c) s.
Proof.
  intros s. rewrite lang_seq. split.
  - intros [x [y [H1 [H2 ->]]]]. apply lang_cls in H1. destruct H1 as [c [E ->]]. apply (lang_upto_cls _ _ scope_cls) in H2. destruct H2 as [H2 H3].
    cbn [append String.length]. split; [lia|]. apply all_chars_cons. split; [now apply scope_cls|exact H3].
  - intros [H1 H2]. destruct s as [|c s]; [cbn in H1; lia|]. cbn [String.length] in H1. apply all_chars_cons in H2. destruct H2 as [H2 H3].
    exists (String c ""), s. rewrite lang_cls, (lang_upto_cls _ _ scope_cls). repeat split; [|lia|exact H3]. exists c. split; [now apply scope_cls|reflexivity].
Qed.
Lemma problem_ok : forall s, re_match problem_re s = true <-> problem_code s.
Proof.
  intros s. rewrite re_match_ok. unfold problem_re. split.
  - intros H. apply lang_seq in H. destruct H as [k [s1 [HK [H ->]]]]. apply lang_cls in HK. destruct HK as [c [HK ->]]. apply lang_seq in H. destruct H as [d [s2 [HD [H ->]]]].
    apply lang_chr in HD; [|reflexivity]. subst d. apply lang_seq in H. destruct H as [sc [s3 [HS [H ->]]]]. apply scope_ok in HS.
    apply lang_seq in H. destruct H as [d [t [HD [H ->]]]]. apply lang_chr in HD; [|reflexivity]. subst d. apply tail_ok in H.
    exists (String c ""), sc, t. revert HK. chars. intros HK. split; [|split; [apply HS|split; [apply HS|split; [exact H|reflexivity]]]].
    destruct HK as [[->| ->]| ->]; auto.
  - intros [k [sc [t [HK [HS [HA [HT ->]]]]]]]. apply lang_seq. exists k, ("." ++ sc ++ "." ++ t). split.
    { destruct HK as [->|[->| ->]]; constructor; reflexivity. }
    split; [|reflexivity]. apply lang_seq. exists ".", (sc ++ "." ++ t). split; [now apply lang_chr|]. split; [|reflexivity].
    apply lang_seq. exists sc, ("." ++ t). split; [apply scope_ok; now split|]. split; [|reflexivity].
    apply lang_seq. exists ".", t. split; [now apply lang_chr|]. split; [now apply tail_ok|reflexivity].
Qed.

(** ** DID URLs *)

Lemma segments_ok : forall s, lang (RStar (RSeq (RStar (RCls lower)) (RChr 58))) s <->
  exists segs, (forall x, In x segs -> all_chars lower_letter x) /\ s = String.concat "" (map (fun x => x ++ ":") segs).
Proof.
  intros s. split.
  - intros H. remember (RStar (RSeq (RStar (RCls lower)) (RChr 58))) as r eqn:Er. induction H as [| | | | |a|a x y H1 IH1 H2 IH2]; try discriminate.
    + exists []. split; [intros x []|reflexivity].
    + injection Er as ->. destruct (IH2 eq_refl) as [segs [HS ->]]. apply lang_seq in H1. destruct H1 as [u [v [HU [HV ->]]]].
      apply (lang_star_cls _ _ lower_ok) in HU. apply lang_chr in HV; [|reflexivity]. subst v. exists (u :: segs). split.
      * intros x [<-|HX]; auto.
      * cbn [map String.concat]. destruct segs as [|g segs]; [cbn; now rewrite sapp_nil_r|reflexivity].
  - intros [segs [HS ->]]. induction segs as [|u segs IH]; [constructor|].
    assert (HC : String.concat "" (map (fun x => x ++ ":") (u :: segs)) = (u ++ ":") ++ String.concat "" (map (fun x => x ++ ":") segs)).
    { cbn [map String.concat]. destruct segs as [|g segs]; [cbn; now rewrite sapp_nil_r|reflexivity]. }
    rewrite HC. apply l_more.
    + apply lang_seq. exists u, ":". rewrite (lang_star_cls _ _ lower_ok). split; [apply HS; now left|]. split; [now apply lang_chr|reflexivity].
    + apply IH. intros x HX. apply HS. now right.
Qed.
Lemma did_re_ok : forall s, re_match did_re s = true <-> did s.
Proof.
  intros s. rewrite re_match_ok. unfold did_re. split.
  - intros H. apply lang_seq in H. destruct H as [x [s1 [HX [H ->]]]]. apply lang_lit in HX. subst x.
    apply lang_seq in H. destruct H as [m [s2 [HM [H ->]]]]. apply (lang_plus_cls _ _ lower_ok) in HM.
    apply lang_seq in H. destruct H as [x [s3 [HX [H ->]]]]. apply lang_chr in HX; [|reflexivity]. subst x.
    apply lang_seq in H. destruct H as [g [i [HG [HI ->]]]]. apply segments_ok in HG. destruct HG as [segs [HS ->]].
    apply (lang_plus_cls _ _ did_cls) in HI. exists m, segs, i. destruct HM as [HM1 HM2], HI as [HI1 HI2].
    split; [exact HM1|]. split; [exact HM2|]. split; [exact HS|]. split; [exact HI1|]. split; [exact HI2|reflexivity].
  - intros [m [segs [i [HM1 [HM2 [HS [HI1 [HI2 ->]]]]]]]]. apply lang_seq. exists "did:". eexists. rewrite lang_lit. split; [reflexivity|]. split; [|reflexivity].
    apply lang_seq. exists m. eexists. rewrite (lang_plus_cls _ _ lower_ok). split; [now split|]. split; [|reflexivity].
    apply lang_seq. exists ":". eexists. rewrite lang_chr by reflexivity. split; [reflexivity|]. split; [|reflexivity].
    apply lang_seq. eexists. eexists. split; [apply segments_ok; exists segs; split; [exact HS|reflexivity]|]. split; [|reflexivity].
    apply (lang_plus_cls _ _ did_cls). now split.
Qed.
Lemma path_cls : forall c, (negb (is_char 63 c) && negb (is_char 35 c))%bool = true <-> c <> "?"%char /\ c <> "#"%char.
Proof.
  intros c. rewrite andb_true_iff, !negb_true_iff, <- !not_true_iff_false, !is_char_eq by (vm_compute; reflexivity). reflexivity.
Qed.
Lemma query_cls : forall c, negb (is_char 35 c) = true <-> c <> "#"%char.
Proof. intros c. rewrite negb_true_iff, <- not_true_iff_false, is_char_eq by (vm_compute; reflexivity). reflexivity. Qed.
Lemma fragment_cls : forall c, negb (is_char 10 c) = true <-> N_of_ascii c <> 10%N.
Proof. intros c. unfold is_char, code. rewrite negb_true_iff, N.eqb_neq. reflexivity. Qed.
Lemma opt_part : forall n f (P : ascii -> Prop) s, (n < 256)%N -> (forall c, f c = true <-> P c) ->
  lang (ROpt (RSeq (RChr n) (RStar (RCls f)))) s <-> s = "" \/ exists p, s = String (chr n) p /\ all_chars P p.
Proof.
  intros n f P s HN HF. rewrite lang_opt, lang_seq. split.
  - intros [->|[x [y [HX [HY ->]]]]]; [now left|]. right. apply lang_chr in HX; [|exact HN]. subst x. apply (lang_star_cls f P HF) in HY. exists y. now split.
  - intros [->|[p [-> HP]]]; [now left|]. right. exists (String (chr n) ""), p. rewrite lang_chr by exact HN. rewrite (lang_star_cls f P HF). now repeat split.
Qed.
Definition tail_spec (t : string) : Prop := exists path query fragment,
    (path = "" \/ exists p, path = "/" ++ p /\ all_chars (fun c => c <> "?"%char /\ c <> "#"%char) p) /\
    (query = "" \/ exists q, query = "?" ++ q /\ all_chars (fun c => c <> "#"%char) q) /\
    (fragment = "" \/ exists f, fragment = "#" ++ f /\ all_chars (fun c => N_of_ascii c <> 10%N) f) /\
    t = path ++ query ++ fragment.
Lemma did_tail_ok : forall t, re_match did_tail_re t = true <-> tail_spec t.
Proof.
  intros t. rewrite re_match_ok. unfold did_tail_re. rewrite lang_seq. split.
  - intros [p [t1 [HP [H ->]]]]. apply lang_seq in H. destruct H as [q [f [HQ [HF ->]]]].
    apply (opt_part 47 _ _ _ eq_refl path_cls) in HP. apply (opt_part 63 _ _ _ eq_refl query_cls) in HQ. apply (opt_part 35 _ _ _ eq_refl fragment_cls) in HF.
    exists p, q, f. repeat split; assumption.
  - intros [p [q [f [HP [HQ [HF ->]]]]]]. exists p, (q ++ f). rewrite lang_seq. split; [now apply (opt_part 47 _ _ _ eq_refl path_cls)|]. split; [|reflexivity].
    exists q, f. split; [now apply (opt_part 63 _ _ _ eq_refl query_cls)|]. split; [now apply (opt_part 35 _ _ _ eq_refl fragment_cls)|reflexivity].
Qed.

(** The three characters that end a DID do not occur in it, and what follows a DID starts with one of them. *)
Definition ends_did (c : ascii) : Prop := c = "/"%char \/ c = "?"%char \/ c = "#"%char.
Lemma between_dec : forall lo hi c, between lo hi c -> in_range (N_of_ascii lo) (N_of_ascii hi) c = true.
Proof. intros lo hi c H. now apply range_between. Qed.
Lemma lower_not_end : forall c, lower_letter c -> ~ ends_did c.
Proof. intros c H [->|[->| ->]]; apply between_dec in H; vm_compute in H; discriminate. Qed.
Lemma did_char_not_end : forall c, did_char c -> ~ ends_did c.
Proof.
  intros c H HE. apply did_cls in H. destruct HE as [->|[->| ->]]; vm_compute in H; discriminate.
Qed.
Lemma did_no_end : forall d, did d -> all_chars (fun c => ~ ends_did c) d.
Proof.
  intros d [m [segs [i [_ [HM [HS [_ [HI ->]]]]]]]].
  assert (HP : all_chars (fun c => ~ ends_did c) ":").
  { apply all_chars_cons. split; [intros [H|[H|H]]; discriminate|apply all_chars_nil]. }
  apply all_chars_app. split.
  { repeat (apply all_chars_cons; split; [intros [H|[H|H]]; discriminate|]). apply all_chars_nil. }
  apply all_chars_app. split; [eapply all_chars_impl; [apply lower_not_end|exact HM]|]. apply all_chars_app. split; [exact HP|].
  apply all_chars_app. split; [|eapply all_chars_impl; [apply did_char_not_end|exact HI]]. clear HI HM.
  induction segs as [|u segs IH]; [apply all_chars_nil|].
  assert (HC : String.concat "" (map (fun x => x ++ ":") (u :: segs)) = (u ++ ":") ++ String.concat "" (map (fun x => x ++ ":") segs)).
  { cbn [map String.concat]. destruct segs as [|g segs]; [cbn; now rewrite sapp_nil_r|reflexivity]. }
  rewrite HC. apply all_chars_app. split; [apply all_chars_app; split; [eapply all_chars_impl; [apply lower_not_end|apply HS; now left]|exact HP]|].
  apply IH. intros x HX. apply HS. now right.
Qed.
Lemma tail_starts : forall t, tail_spec t -> t = "" \/ exists c r, t = String c r /\ ends_did c.
Proof.
  intros t [p [q [f [HP [HQ [HF ->]]]]]]. destruct HP as [->|[p' [-> _]]]; [|right; eexists; eexists; split; [reflexivity|now left]].
  destruct HQ as [->|[q' [-> _]]]; [|right; eexists; eexists; split; [reflexivity|right; now left]].
  destruct HF as [->|[f' [-> _]]]; [now left|right; eexists; eexists; split; [reflexivity|right; now right]].
Qed.
Lemma split_unique : forall d d' t t', all_chars (fun c => ~ ends_did c) d -> all_chars (fun c => ~ ends_did c) d' ->
  (t = "" \/ exists c r, t = String c r /\ ends_did c) -> (t' = "" \/ exists c r, t' = String c r /\ ends_did c) -> d ++ t = d' ++ t' -> d = d' /\ t = t'.
Proof.
  induction d as [|c d IH]; intros [|c' d'] t t' HD HD' HT HT' E; cbn in E.
  - now split.
  - subst t. destruct HT as [HT|[x [r [HT HE]]]]; [discriminate|]. injection HT as <- _. apply all_chars_cons in HD'. tauto.
  - subst t'. destruct HT' as [HT'|[x [r [HT' HE]]]]; [discriminate|]. injection HT' as <- _. apply all_chars_cons in HD. tauto.
  - injection E as <- E. apply all_chars_cons in HD, HD'. destruct (IH d' t t') as [E1 E2]; try tauto. subst. now split.
Qed.
Lemma did_url_unique : forall s d d', did_url s d -> did_url s d' -> d = d'.
Proof.
  intros s d d' [HD [p [q [f [H1 [H2 [H3 E]]]]]]] [HD' [p' [q' [f' [H1' [H2' [H3' E']]]]]]].
  assert (HT : tail_spec (p ++ q ++ f)) by (exists p, q, f; auto). assert (HT' : tail_spec (p' ++ q' ++ f')) by (exists p', q', f'; auto).
  eapply (split_unique d d' (p ++ q ++ f) (p' ++ q' ++ f')); [now apply did_no_end|now apply did_no_end|now apply tail_starts|now apply tail_starts|congruence].
Qed.
Lemma did_url_iff : forall s d, did_url s d <-> did d /\ exists t, tail_spec t /\ s = d ++ t.
Proof.
  intros s d. split.
  - intros [HD [p [q [f [H1 [H2 [H3 E]]]]]]]. split; [exact HD|]. exists (p ++ q ++ f). split; [exists p, q, f; auto|exact E].
  - intros [HD [t [[p [q [f [H1 [H2 [H3 ->]]]]]] ->]]]. split; [exact HD|]. exists p, q, f. auto.
Qed.
Lemma did_of_url_some : forall s d, did_url s d -> did_of_url s = d.
Proof.
  intros s d H. unfold did_of_url. apply did_url_iff in H. destruct H as [HD [t [HT ->]]].
  destruct (find _ _) as [n|] eqn:EF.
  - apply find_some in EF. destruct EF as [HI HB]. apply andb_true_iff in HB. destruct HB as [HB1 HB2]. apply did_re_ok in HB1. apply did_tail_ok in HB2.
    symmetry. eapply did_url_unique; apply did_url_iff; split; [exact HD|exists t; now split|exact HB1|]. exists (drop n (d ++ t)). split; [exact HB2|]. symmetry. apply take_drop.
  - exfalso. assert (HX := find_none _ _ EF (String.length d)). cbn beta in HX. rewrite take_app, drop_app in HX.
    apply did_re_ok in HD. apply did_tail_ok in HT. rewrite HD, HT in HX. cbn in HX.
    assert (HI : In (String.length d) (seq 0 (S (String.length (d ++ t))))) by (apply in_seq; rewrite slen_app; lia). specialize (HX HI). discriminate.
Qed.
Lemma did_of_url_none : forall s, (forall d, ~ did_url s d) -> did_of_url s = "".
Proof.
  intros s H. unfold did_of_url. destruct (find _ _) as [n|] eqn:EF; [|reflexivity]. exfalso.
  apply find_some in EF. destruct EF as [HI HB]. apply andb_true_iff in HB. destruct HB as [HB1 HB2]. apply did_re_ok in HB1. apply did_tail_ok in HB2.
  apply (H (take n s)). apply did_url_iff. split; [exact HB1|]. exists (drop n s). split; [exact HB2|]. symmetry. apply take_drop.
Qed.
Lemma did_not_empty : ~ did "".
Proof. intros [m [segs [i [_ [_ [_ [_ [_ E]]]]]]]]. discriminate. Qed.
Lemma did_url_self : forall d, did d -> did_url d d.
Proof. intros d H. split; [exact H|]. exists "", "", "". repeat split; auto. now rewrite sapp_nil_r. Qed.
Lemma did_url_dec : forall s, (exists d, did_url s d) \/ (forall d, ~ did_url s d).
Proof.
  intros s. destruct (find (fun n => re_match did_re (take n s) && re_match did_tail_re (drop n s))%bool (seq 0 (S (String.length s)))) as [n|] eqn:EF.
  - left. apply find_some in EF. destruct EF as [HI HB]. apply andb_true_iff in HB. destruct HB as [HB1 HB2]. apply did_re_ok in HB1. apply did_tail_ok in HB2.
    exists (take n s). apply did_url_iff. split; [exact HB1|]. exists (drop n s). split; [exact HB2|]. symmetry. apply take_drop.
  - right. intros d H. apply did_url_iff in H. destruct H as [HD [t [HT ->]]]. assert (HX := find_none _ _ EF (String.length d)). cbn beta in HX. rewrite take_app, drop_app in HX.
    apply did_re_ok in HD. apply did_tail_ok in HT. rewrite HD, HT in HX. cbn in HX.
    assert (HI : In (String.length d) (seq 0 (S (String.length (d ++ t))))) by (apply in_seq; rewrite slen_app; lia). specialize (HX HI). discriminate.
Qed.
