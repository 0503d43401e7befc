(** * The COWEL highlighter: exact tokens of documents, by induction over the grammar *)
From Coq Require Import List NArith ZArith Bool Arith Lia.
From Verif Require Import M_Base L_Base S_Tokens M_Utf8 L_Utf8 L_Any P_Utf8 M_Emit S_Ops L_Emit M_Types M_Chars S_Chars P_Chars M_Parse S_Parse L_Parse P_Parse
  M_Api M_Highlighter S_Highlight L_Highlighter P_LangCpp L_Auto S_Json L_JsonText S_Lexemes L_Lexemes L_Number L_Number2 L_Scan L_Comments L_Does M_LangCowel S_LangCowel P_LangCowel P_LangCowelLexemes P_LangCowelDocument.
Import ListNotations.

Scheme content_min := Minimality for cowel_content Sort Prop
with item_min := Minimality for cowel_item Sort Prop
with arguments_min := Minimality for cowel_arguments Sort Prop
with optional_block_min := Minimality for cowel_optional_block Sort Prop
with block_min := Minimality for S_LangCowel.cowel_block Sort Prop
with group_min := Minimality for cowel_group Sort Prop
with members_min := Minimality for cowel_members Sort Prop
with member_min := Minimality for cowel_member Sort Prop
with expression_min := Minimality for cowel_expression Sort Prop
with operand_min := Minimality for cowel_operand Sort Prop
with operation_min := Minimality for cowel_operation Sort Prop
with line_min := Minimality for cowel_line Sort Prop.
Combined Scheme cowel_min from content_min, item_min, arguments_min, optional_block_min, block_min, group_min, members_min, member_min, expression_min, operand_min, operation_min, line_min.

Definition grp f := fst (cowel_nested f).
Definition seq f := snd (cowel_nested f).
Lemma grp_no f : 1 <= f -> no_group (grp f).
Proof.
  intros L. destruct f as [|f]; [lia|]. intros s H. unfold grp. cbn [cowel_nested fst]. unfold cowel_group_body. apply does_get. cbn [text map concat app]. replace (starts_with_ch s (ch "(")) with false; [apply does_ret|]. symmetry. destruct s as [|x s]; [reflexivity|]. apply starts_ch_ne. apply (H x eq_refl).
Qed.
Ltac lens := repeat match goal with H : _ <= _ |- _ => progress (norm_in H; rewrite ?app_length in H; cbn [length] in H) end.

Definition Pcontent k n l rest := forall f, length (text l) <= f -> iterates (cowel_sequence_round (grp f) (seq f) (kind_of k)) tt rest tt (Z.of_nat n) tt l.
Definition Pitem p rest := forall f k lvl, length (text p) <= f -> (0 <= lvl)%Z -> does (cowel_expect_content (grp f) (seq f) k lvl) tt p rest (true, lvl) tt.
Definition Parguments a rest := forall f, length (text a) <= f -> 1 <= f -> exists b, does (grp f) tt a rest b tt.
Definition Poptional_block a rest := forall f, length (text a) <= f -> exists b, does (cowel_expect_block (seq f)) tt a rest b tt.
Definition Pblock a rest := forall f, length (text a) <= f -> does (cowel_expect_block (seq f)) tt a rest true tt.
Definition Pgroup a rest := forall f, length (text a) <= f -> does (grp f) tt a rest true tt.
Definition group_iterates q rest := forall f, length (text q) <= f -> 1 <= f -> iterates (cowel_group_round (grp f) (seq f)) tt rest tt tt tt q.
Definition members_start m rest := m = [(bs ")", Some hl_symbol_parens)] \/ (exists q, m = (bs ",", Some hl_symbol_punc) :: q /\ group_iterates q rest) \/ exists c t, text m = c :: t /\ ~ In c [41; 44; 125]%N.
Definition Pmembers m rest := members_start m rest /\ (forall b, cowel_blank b (text m ++ rest) -> group_iterates (b ++ m) rest).
Definition Pmember p rest := forall f, length (text p) <= f -> does (cowel_expect_group_member (grp f) (seq f)) tt p rest true tt.
Definition Pexpression p rest := forall f, length (text p) <= f -> does (cowel_expect_expression (grp f) (seq f)) tt p rest true tt.
Definition splice_iterates q rest := forall f, length (text q) <= f -> 1 <= f -> iterates (cowel_splice_round (grp f) (seq f)) tt rest tt tt tt q.
Definition Poperand s rest := forall b, cowel_blank b (text s ++ rest) -> splice_iterates (b ++ s) rest.
Definition Poperation p rest := p = [(bs ")", Some hl_string_interpolation_delim)] \/ exists o q, p = o ++ q /\ cowel_operator o (text q ++ rest) /\ splice_iterates q rest.
Definition Pline l rest := forall f, length (text l) <= f -> 1 <= f -> iterates (cowel_line_round (grp f) (seq f)) tt rest tt tt tt l.

(** ** Enclosed content *)
Lemma does_enclosed o cl h k c rest f : (cl = 34%N /\ (k = in_quotes \/ k = in_member_name) \/ cl = ch "}" /\ k = in_braces) -> Pcontent k 0 c ([cl] ++ rest) -> length (text c) + 2 <= f ->
  does (cowel_expect_enclosed (seq f) o cl h (kind_of k)) tt (([o], Some h) :: c ++ [([cl], Some h)]) rest true tt.
Proof.
  intros _ H L. destruct f as [|f]; [lia|]. unfold cowel_expect_enclosed. apply does_get. norm. cbn [app starts_with_ch]. rewrite N.eqb_refl. cbn [negb]. eapply does_cons; [apply does_emit; [reflexivity|discriminate]|].
  eapply does_bind; [unfold seq; cbn [cowel_nested snd]; unfold cowel_sequence_body; apply does_loop; norm; apply (H f); lia|]. apply does_get. norm. cbn [app starts_with_ch]. rewrite N.eqb_refl. cbn [when].
  eapply does_last; [apply does_emit; [reflexivity|discriminate]|apply does_ret].
Qed.
Lemma case_block c rest : Pcontent in_braces 0 c (bs "}" ++ rest) -> Pblock ((bs "{", Some hl_symbol_brace) :: c ++ [(bs "}", Some hl_symbol_brace)]) rest.
Proof. intros H f L. lens. change (length (bs "{")) with 1 in L. change (length (bs "}")) with 1 in L. apply (does_enclosed (ch "{") (ch "}") hl_symbol_brace in_braces); [auto|exact H|lia]. Qed.
Lemma case_no_block rest : not_before (fun c => c = ch "{") rest -> Poptional_block [] rest.
Proof. intros H f _. exists false. unfold cowel_expect_block. apply no_enclosed. exact H. Qed.
Lemma case_group b m rest : cowel_blank b (text m ++ rest) -> Pmembers m rest -> Pgroup ((bs "(", Some hl_symbol_parens) :: b ++ m) rest.
Proof.
  intros B [St H] f L. destruct f as [|f]; [cbn in L; lia|]. lens. change (length (bs "(")) with 1 in L. unfold grp. cbn [cowel_nested fst]. unfold cowel_group_body. apply does_get. norm. cbn [app]. change (starts_with_ch (bs "(" ++ text b ++ text m ++ rest) (ch "(")) with true. cbn [negb].
  eapply does_cons; [apply does_emit; [reflexivity|discriminate]|]. eapply does_last; [apply does_loop|apply does_ret]. apply (H b B f); [norm; rewrite app_length; lia|].
  assert (1 <= length (text m)); [|lia]. destruct St as [-> |[(q & -> & _)|(c & t & -> & _)]]; [cbn; lia|rewrite text_cons; cbn; lia|cbn; lia].
Qed.

(** ** Expressions *)
Lemma case_call n b1 a b2 b rest : identifier n -> cowel_blank b1 (text a ++ text b2 ++ text b ++ rest) -> begins (fun c => In c (bs "({")) (text a ++ text b2 ++ text b ++ rest) ->
  Parguments a (text b2 ++ text b ++ rest) -> cowel_blank b2 (text b ++ rest) -> cowel_solid (text b ++ rest) -> Poptional_block b rest -> Pexpression ((n, Some hl_markup_tag) :: b1 ++ a ++ b2 ++ b) rest.
Proof.
  intros Hn B1 Bg Ha B2 So Hb f L. lens. destruct (identifier_head n Hn) as (c & u & En & Hc). assert (L1 : 1 <= length n) by (rewrite En; cbn; lia).
  assert (So1 : cowel_solid (text a ++ text b2 ++ text b ++ rest)) by (destruct Bg as (x & t & -> & Hx); apply solid_member; left; right; right; change (bs "({") with [40; 123]%N in Hx; cbn [In] in *; intuition congruence).
  assert (Nb : not_before ident_char (text b1 ++ text a ++ text b2 ++ text b ++ rest)) by (apply blank_before; [exact B1|]; destruct Bg as (x & t & -> & Hx); apply not_before_cons; change (bs "({") with [40; 123]%N in Hx; cbn [In] in Hx; unfold ident_char, letter, digit; lia).
  destruct (Ha f ltac:(lia) ltac:(lia)) as [x Dx]. destruct (Hb f ltac:(lia)) as [y Dy].
  unfold cowel_expect_expression. apply does_last with (x := true) (s1 := tt); [|apply does_ret]. unfold cowel_expect_directive_call. apply does_get. cbv zeta. norm. rewrite identifier_exact by assumption. rewrite En at 1. cbn [length Nat.eqb]. rewrite skipn_app_exact.
  eapply does_lift; [apply blank_match; assumption|]. assert (E : nth_error (n ++ text b1 ++ text a ++ text b2 ++ text b ++ rest) (length n + length (text b1)) = nth_error (text a ++ text b2 ++ text b ++ rest) 0) by (rewrite !app_assoc, <- app_length, <- !(app_assoc (n ++ text b1)), nth_error_app2, Nat.sub_diag by lia; reflexivity).
  destruct Bg as (z & t & Ez & Hz). rewrite Ez in E |- *. rewrite (proj2 (Nat.leb_gt _ _)) by (rewrite !app_length; cbn [length]; lia). eapply does_at; [exact E|]. replace (negb (z =? ch "(")%N && negb (z =? ch "{")%N) with false by (change (bs "({") with [ch "("; ch "{"] in Hz; destruct Hz as [<-|[<-|[]]]; reflexivity).
  eapply does_cons; [apply does_emit; [reflexivity|rewrite En; discriminate]|]. eapply does_bind; [apply does_blank; norm; assumption|]. eapply does_bind; [norm; exact Dx|]. eapply does_bind; [apply does_blank; norm; assumption|]. eapply does_last; [exact Dy|]. apply does_ret.
Qed.
Lemma case_word w h rest : identifier w -> cowel_word w h -> not_before ident_char rest -> after_blank (not_before (fun c => In c (bs "({"))) rest -> Pexpression [(w, Some h)] rest.
Proof. intros H1 H2 H3 H4 f _. unfold cowel_expect_expression. eapply does_nil; [rewrite text_one; apply word_rest; assumption|]. cbv iota. eapply does_last; [apply does_word; assumption|apply does_ret]. Qed.
Lemma case_fun b n rest : cowel_blanks cowel_horizontal b (n ++ rest) -> text b <> [] -> identifier n -> not_before ident_char rest -> Pexpression ((bs "fun", Some hl_keyword) :: b ++ [(n, Some hl_name_function_decl)]) rest.
Proof.
  intros H1 H2 H3 H4 f _. unfold cowel_expect_expression.
  assert (Nb : not_before ident_char (text b ++ n ++ rest)).
  { clear H3 H4. remember (n ++ rest) as r eqn:Er. clear Er. induction H1 as [r|w l r Hw W IH|c l r Hc W IH]; [elim H2; reflexivity| |].
    - norm. destruct Hw as [|x w Hx _]; [apply IH; exact H2|]. apply not_before_cons. apply space_not_ident. left. exact Hx.
    - destruct (comment_head _ _ Hc) as (x & t & Et & _). norm. rewrite Et. apply not_before_cons. unfold ident_char, letter, digit. lia. }
  eapply does_nil; [norm; apply word_rest|]; [exists 102%N, (bs "un"); split; [reflexivity|]; split; [left; right; vm_compute; intuition congruence|repeat (apply Forall_cons; [left; right; vm_compute; intuition congruence|]); constructor]|exact Nb|apply fun_uncalled; assumption|].
  cbv iota. eapply does_last; [apply does_fun; assumption|apply does_ret].
Qed.
Lemma case_minus_infinity rest : not_before ident_char rest -> Pexpression [(bs "-", Some hl_value_delim); (bs "infinity", Some hl_value)] rest.
Proof. intros H f _. unfold cowel_expect_expression. skip_ no_call; [norm; apply not_before_cons; vm_compute; intuition congruence|]. eapply does_last; [apply does_minus_infinity; assumption|apply does_ret]. Qed.
Lemma starts_no c t : c <> 45%N -> forall r, c :: t <> bs "-infinity" ++ r. Proof. intros H r [= E _]. contradiction. Qed.
Lemma case_number n rest : cowel_number n -> not_before (fun c => letter c \/ digit c \/ c = ch ".") rest -> (In (last (text n) 0%N) (bs "eE") -> not_before (fun c => In c (bs "+-")) rest) -> Pexpression n rest.
Proof.
  intros H1 H2 H3 f _. destruct (number_head n H1) as (c & t & E & Hc). change (ch ".") with 46%N in Hc. unfold cowel_expect_expression.
  skip_ no_call; [rewrite E; apply not_before_cons; unfold ident_start, letter, digit in *; lia|]. skip_ no_word; [rewrite E; apply not_before_cons; unfold ident_start, letter, digit in *; lia|rewrite E; apply starts_no; unfold digit in *; lia|].
  eapply does_last; [apply does_number; assumption|apply does_ret].
Qed.
Lemma skip_primary f c t p rest x : ~ ident_start c -> ~ digit c -> c <> 46%N -> c <> 45%N -> text p ++ rest = c :: t ->
  does (let! b := cowel_expect_quoted_string (seq f) in if b then ret true else let! b := cowel_expect_block (seq f) in if b then ret true else grp f) tt p rest x tt -> does (cowel_expect_expression (grp f) (seq f)) tt p rest x tt.
Proof.
  intros H1 H2 H3 H4 E D. unfold cowel_expect_expression. skip_ no_call; [rewrite E; apply not_before_cons; exact H1|]. skip_ no_word; [rewrite E; apply not_before_cons; exact H1|rewrite E; apply starts_no; exact H4|].
  skip_ no_number; [rewrite E; apply not_before_cons; unfold number_char; change (ch ".") with 46%N; unfold ident_start in H1; tauto|exact D].
Qed.
Ltac notchar := unfold ident_start, letter, digit; (lia || discriminate).
Lemma case_string c rest : Pcontent in_quotes 0 c ([34%N] ++ rest) -> Pexpression (([34%N], Some hl_string_delim) :: c ++ [([34%N], Some hl_string_delim)]) rest.
Proof.
  intros H f L. lens. apply (skip_primary f 34%N (text c ++ 34%N :: rest)); try notchar; [norm; reflexivity|]. apply does_last with (x := true) (s1 := tt); [|apply does_ret]. apply (does_enclosed 34 34 hl_string_delim in_quotes); [auto|exact H|lia].
Qed.
Lemma case_block_expression b rest : S_LangCowel.cowel_block b rest -> Pblock b rest -> Pexpression b rest.
Proof.
  intros [c r _] H f L. apply (skip_primary f 123%N (text c ++ bs "}" ++ r)); try notchar; [norm; reflexivity|]. unfold cowel_expect_quoted_string, cowel_expect_block; skip_ no_enclosed; [norm; apply not_before_cons; discriminate|]. eapply does_last; [exact (H f L)|apply does_ret].
Qed.
Lemma case_group_expression g rest : cowel_group g rest -> Pgroup g rest -> Pexpression g rest.
Proof.
  intros [b m r _ _] H f L. apply (skip_primary f 40%N (text b ++ text m ++ r)); try notchar; [norm; reflexivity|]. unfold cowel_expect_quoted_string, cowel_expect_block; skip_ no_enclosed; [norm; apply not_before_cons; discriminate|]. unfold cowel_expect_quoted_string, cowel_expect_block; skip_ no_enclosed; [norm; apply not_before_cons; discriminate|]. exact (H f L).
Qed.

(** ** Members *)
Lemma not_equals_before b e rest : cowel_blank b (text e ++ rest) -> cowel_expression e rest -> not_before (fun c => c = ch "=") (text b ++ text e ++ rest).
Proof.
  intros B H. apply (blanks_before cowel_space); [discriminate| |exact B|].
  - intros c Hc ->. unfold cowel_space, cowel_horizontal, cowel_newline in Hc. cbn in Hc. intuition discriminate.
  - destruct (expression_head e rest H) as (c & t & -> & Hc). apply not_before_cons. intros ->. unfold expression_char, ident_start, letter, digit in Hc. change (ch "=") with 61%N in Hc. cbn [In] in Hc. lia.
Qed.
Lemma solid_equals t : cowel_solid (bs "=" ++ t).
Proof. apply solid_cons; [unfold cowel_space, cowel_horizontal, cowel_newline; cbn; intuition discriminate|discriminate]. Qed.
Lemma member_tail f q b1 b2 e rest n nm : cowel_blank b1 (bs "=" ++ text b2 ++ text e ++ rest) -> cowel_blank b2 (text e ++ rest) -> cowel_expression e rest -> Pexpression e rest -> length (text e) <= f ->
  text nm = n -> n <> [] -> (cowel_match_identifier (n ++ text b1 ++ bs "=" ++ text b2 ++ text e ++ rest) = length n \/
    cowel_match_identifier (n ++ text b1 ++ bs "=" ++ text b2 ++ text e ++ rest) = 0 /\ cowel_match_quoted_member_name (n ++ text b1 ++ bs "=" ++ text b2 ++ text e ++ rest) = Ok (length n)) ->
  (forall k y, does (k tt) tt (b1 ++ (bs "=", Some hl_symbol_punc) :: b2 ++ e) rest y tt ->
     does (let! b := cowel_expect_quoted_member_name (seq f) in bindM (if b then ret tt else emit_and_advance (length n) hl_markup_attr) k) tt (nm ++ b1 ++ (bs "=", Some hl_symbol_punc) :: b2 ++ e) rest (y : bool) tt) ->
  q = nm ++ b1 ++ (bs "=", Some hl_symbol_punc) :: b2 ++ e -> does (cowel_expect_group_member (grp f) (seq f)) tt q rest true tt.
Proof.
  intros B1 B2 He IH L En N0 U D ->. unfold cowel_expect_group_member. apply does_get. cbv zeta. norm. rewrite En.
  set (r := n ++ text b1 ++ bs "=" ++ text b2 ++ text e ++ rest) in *.
  assert (K : does (if negb (cowel_match_identifier r =? 0) then ret (cowel_match_identifier r) else lift (cowel_match_quoted_member_name r)) tt [] r (length n) tt).
  { destruct U as [-> |[-> U2]].
    - destruct n; [congruence|]. cbn [length Nat.eqb negb]. apply does_ret.
    - cbn [Nat.eqb negb]. intros i o. eapply wp_lift; [exact U2|]. cbn [text map concat length tokens rev app]; rewrite Nat.add_0_r; split; reflexivity. }
  eapply does_nil; [norm; rewrite En; exact K|]. clear K. rewrite (proj2 (Nat.eqb_neq (length n) 0)) by (destruct n; [congruence|discriminate]). cbn [negb]. subst r.
  apply does_substr; [rewrite app_length; lia|]. rewrite skipn_app_exact. eapply does_lift; [apply blank_match; [exact B1|apply solid_equals]|]. apply does_substr; [rewrite !app_length; lia|].
  rewrite (app_assoc n (text b1)), <- app_length, skipn_app_exact. replace (starts_with_ch _ (ch "=") && _) with true.
  2:{ symmetry. change (bs "=" ++ text b2 ++ text e ++ rest) with (ch "=" :: text b2 ++ text e ++ rest). cbn [starts_with_ch]. rewrite N.eqb_refl. cbn [andb length]. pose proof (not_equals_before b2 e rest B2 He) as X. destruct (text b2 ++ text e ++ rest) as [|x t]; [reflexivity|]. cbn [nth length Nat.eqb orb]. rewrite (proj2 (N.eqb_neq x (ch "="))); [reflexivity|]. apply (X x eq_refl). }
  apply D. eapply does_bind; [apply does_blank; norm; [exact B1|apply solid_equals]|]. apply does_get. norm. apply does_check; [reflexivity|]. eapply does_cons; [apply does_emit; [reflexivity|discriminate]|].
  eapply does_bind; [apply does_blank; [exact B2|apply expression_solid; exact He]|]. eapply does_last; [exact (IH f L)|apply does_ret].
Qed.
Lemma case_named n b1 b2 e rest : identifier n -> cowel_blank b1 (bs "=" ++ text b2 ++ text e ++ rest) -> cowel_blank b2 (text e ++ rest) -> cowel_expression e rest -> Pexpression e rest ->
  Pmember ((n, Some hl_markup_attr) :: b1 ++ (bs "=", Some hl_symbol_punc) :: b2 ++ e) rest.
Proof.
  intros Hn B1 B2 He IH f L. lens. destruct (identifier_head n Hn) as (c & u & En & Hc).
  eapply (member_tail f _ b1 b2 e rest n [(n, Some hl_markup_attr)]); [exact B1|exact B2|exact He|exact IH|lia|apply text_one|rewrite En; discriminate|left; apply identifier_exact; [exact Hn|]; apply blank_before; [exact B1|]; apply not_before_cons; vm_compute; intuition congruence| |reflexivity].
  intros k y D. unfold cowel_expect_quoted_member_name. skip_ no_enclosed; [norm; rewrite En; apply not_before_cons; unfold ident_start, letter in Hc; lia|]. eapply does_bind; [apply does_emit; [reflexivity|rewrite En; discriminate]|exact D].
Qed.
Lemma case_quoted c b1 b2 e rest : cowel_content in_member_name 0 c ([34%N] ++ text b1 ++ bs "=" ++ text b2 ++ text e ++ rest) -> Pcontent in_member_name 0 c ([34%N] ++ text b1 ++ bs "=" ++ text b2 ++ text e ++ rest) ->
  cowel_blank b1 (bs "=" ++ text b2 ++ text e ++ rest) -> cowel_blank b2 (text e ++ rest) -> cowel_expression e rest -> Pexpression e rest ->
  Pmember (([34%N], Some hl_markup_attr_delim) :: c ++ ([34%N], Some hl_markup_attr_delim) :: b1 ++ (bs "=", Some hl_symbol_punc) :: b2 ++ e) rest.
Proof.
  intros Hc IHc B1 B2 He IH f L. lens.
  eapply (member_tail f _ b1 b2 e rest ([34%N] ++ text c ++ [34%N]) (([34%N], Some hl_markup_attr_delim) :: c ++ [([34%N], Some hl_markup_attr_delim)])); [exact B1|exact B2|exact He|exact IH|lia|norm; reflexivity|discriminate| | |cbn [app]; rewrite <- app_assoc; reflexivity].
  - right. split; [rewrite <- !app_assoc; apply no_identifier, not_before_cons; unfold ident_start, letter; lia|]. rewrite <- !app_assoc. unfold cowel_match_quoted_member_name. cbn [app starts_with_ch]. rewrite N.eqb_refl. cbn [negb skipn].
    destruct (quoted_exact in_member_name 0 c _ _ Hc (or_intror eq_refl) eq_refl [] (text c) (length (34%N :: text c ++ 34%N :: text b1 ++ bs "=" ++ text b2 ++ text e ++ rest)) 1 eq_refl (Forall_nil _) ltac:(cbn [length]; lia)) as [E|[E _]]; [|discriminate].
    etransitivity; [exact E|]. f_equal. cbn [length]. rewrite app_length. cbn [length]. lia.
  - intros k y D. apply does_bind with (x := true) (s1 := tt); [| eapply does_nil; [apply does_ret|exact D]]. norm. apply (does_enclosed 34 34 hl_markup_attr_delim in_member_name); [auto|exact IHc|lia].
Qed.
Lemma case_ellipsis rest : Pmember [(bs "...", Some hl_name_attr)] rest.
Proof.
  intros f L. apply does_unnamed; [norm; apply unnamed_char; [vm_compute; intuition congruence|discriminate]|]. unfold cowel_expect_other_member. apply (skip_space _ _ (fun _ => _)); [norm; apply not_before_cons; vm_compute; intuition congruence|].
  apply does_last with (x := true) (s1 := tt); [|apply does_ret]. unfold cowel_expect_ellipsis. apply does_get. cbv zeta. norm. change (cowel_match_ellipsis (bs "..." ++ rest)) with 3. cbn [Nat.eqb negb]. eapply does_last; [apply does_emit; [reflexivity|discriminate]|apply does_ret].
Qed.
Lemma number_not_dots n rest : cowel_number n -> forall t, text n ++ rest <> bs "..." ++ t.
Proof.
  intros H t E. destruct (number_head n H) as (c & u & Ec & [Hc|Hc]); [rewrite Ec in E; injection E as -> _; unfold digit in Hc; lia|]. destruct H as [base d n' Hb _|n' f e [N0 F] _ _|f e [N0 F] _]; rewrite number_pieces_text, ?text_one in E; cbn [app] in E.
  - destruct Hb as [[= <- <-]|[[= <- <-]|[[= <- <-]|[]]]]; discriminate E.
  - destruct F as [|x n' Hx _]; [congruence|]. injection E as -> _. unfold digit in Hx. lia.
  - cbn [frac_text] in E. destruct F as [|x f Hx _]; [congruence|]. rewrite text_one in E. injection E as -> _. unfold digit in Hx. lia.
Qed.
Lemma expression_unnamed e rest : cowel_expression e rest -> after_blank (fun t => forall u, t = ch "=" :: u -> begins (fun c => c = ch "=") u) rest -> unnamed (text e ++ rest) /\ forall t, text e ++ rest <> bs "..." ++ t.
Proof.
  intros H A. destruct H as [n b1 a b2 b rest H B1 Bg _ _ _ _|w h rest H _ R _|b n rest H N0 Hn _|rest _|n rest H _ _|c rest H|b rest H|g rest H].
  - destruct (identifier_head n H) as (c & t & En & Hc). norm. split; [|rewrite En; intros u [= -> _]; unfold ident_start, letter in Hc; lia].
    assert (So1 : cowel_solid (text a ++ text b2 ++ text b ++ rest)) by (destruct Bg as (x & y & -> & Hx); apply solid_member; left; right; right; change (bs "({") with [40; 123]%N in Hx; cbn [In] in *; intuition congruence).
    right. exists n, b1, (text a ++ text b2 ++ text b ++ rest). split; [reflexivity|]. split; [rewrite En; discriminate|]. split; [left; apply identifier_exact; [exact H|]; apply blank_before; [exact B1|]; destruct Bg as (x & y & -> & Hx); apply not_before_cons; change (bs "({") with [40; 123]%N in Hx; cbn [In] in Hx; unfold ident_char, letter, digit; lia|].
    split; [exact B1|]. split; [exact So1|]. intros u E. destruct Bg as (x & y & E2 & Hx). rewrite E2 in E. injection E as -> _. destruct Hx as [Hx|[Hx|[]]]; discriminate Hx.
  - destruct (identifier_head w H) as (c & t & En & Hc). norm. split; [|rewrite En; intros u [= -> _]; unfold ident_start, letter in Hc; lia].
    destruct A as (b & t' & -> & B & So & A). right. exists w, b, t'. split; [reflexivity|]. split; [rewrite En; discriminate|]. split; [left; apply identifier_exact; assumption|]. auto.
  - norm. split; [|intros u [=]]. destruct (identifier_head n Hn) as (c & t & En & Hc). assert (B : cowel_blank b (n ++ rest)) by (eapply blanks_weaken; [|exact H]; left; assumption).
    right. exists (bs "fun"), b, (n ++ rest). split; [reflexivity|]. split; [discriminate|]. split; [left; apply identifier_exact|].
    + exists 102%N, (bs "un"); split; [reflexivity|]; split; [left; right; vm_compute; intuition congruence|repeat (apply Forall_cons; [left; right; vm_compute; intuition congruence|]); constructor].
    + clear H A Hn En. remember (n ++ rest) as r eqn:Er. clear Er. induction B as [r|w l r Hw W IH|x l r Hx W IH]; [elim N0; reflexivity| |].
      * norm. destruct Hw as [|x w Hx _]; [apply IH; exact N0|]. apply not_before_cons. apply space_not_ident. exact Hx.
      * destruct (comment_head _ _ Hx) as (y & u & Et & _). norm. rewrite Et. apply not_before_cons. unfold ident_char, letter, digit. lia.
    + split; [exact B|]. rewrite En. split; [apply solid_member; left; left; exact Hc|]. intros u [= -> _]. unfold ident_start, letter in Hc. change (ch "=") with 61%N in Hc. lia.
  - norm. split; [|intros u [=]]. apply unnamed_char; [vm_compute; intuition congruence|discriminate].
  - split; [|apply number_not_dots; exact H]. destruct (number_head n H) as (c & u & -> & Hc). change (ch ".") with 46%N in Hc. apply unnamed_char; unfold ident_start, letter, digit in *; lia.
  - norm. split; [|intros u [=]]. destruct (quoted_exact in_quotes 0 c _ _ H (or_introl eq_refl) eq_refl [] (text c) (length (34%N :: text c ++ 34%N :: rest)) 1 eq_refl (Forall_nil _) ltac:(cbn [length]; lia)) as [E|[_ E]].
    + destruct A as (b & t' & -> & B & So & A). right. exists ([34%N] ++ text c ++ [34%N]), b, t'. rewrite <- !app_assoc. split; [reflexivity|]. split; [discriminate|]. split; [|auto].
      right. split; [apply no_identifier, not_before_cons; unfold ident_start, letter; lia|]. unfold cowel_match_quoted_member_name. cbn [app starts_with_ch]. rewrite N.eqb_refl. cbn [negb skipn]. etransitivity; [exact E|]. f_equal. cbn [length]. rewrite app_length. cbn [length]. lia.
    + left. split; [apply no_identifier, not_before_cons; unfold ident_start, letter; lia|]. unfold cowel_match_quoted_member_name. cbn [app starts_with_ch]. rewrite N.eqb_refl. cbn [negb skipn]. exact E.
  - destruct H as [c r _]. norm. split; [|intros u [=]]. apply unnamed_char; [vm_compute; intuition congruence|discriminate].
  - destruct H as [b m r _ _]. norm. split; [|intros u [=]]. apply unnamed_char; [vm_compute; intuition congruence|discriminate].
Qed.
Lemma case_member_expression e rest : cowel_expression e rest -> Pexpression e rest -> after_blank (fun t => forall u, t = ch "=" :: u -> begins (fun c => c = ch "=") u) rest -> Pmember e rest.
Proof.
  intros H IH A f L. destruct (expression_unnamed e rest H A) as [U E]. apply does_unnamed; [exact U|]. apply does_other_expression; [exact H|exact (IH f L)|exact E].
Qed.
Lemma case_member_operator p rest : cowel_operator p rest -> Pmember p rest.
Proof. intros H f L. apply does_operator_member; [apply grp_no|exact H]. destruct (operator_head p rest H) as (c & t & E & _). rewrite E in L. cbn in L. lia. Qed.

(** The rest of a round after a member *)
Definition group_tail (member_success : bool) : M unit (unit + unit) :=
  let! r := get_rem in
  match r with
  | [] => ret (inr tt)
  | c :: _ =>
    if (c =? ch ")")%N then emit_and_advance 1 hl_symbol_parens ;; ret (inr tt)
    else if (c =? ch ",")%N then emit_and_advance 1 hl_symbol_punc ;; ret (inl tt)
    else if (c =? ch "}")%N then ret (inr tt)
    else if negb member_success then
      match find_first_of r (bs ",})") 0 with
      | None => advance (length r) ;; ret (inr tt)
      | Some n =>
        advance n ;;
        let! r := get_rem in
        let! c := at_ r 0 in
        if (c =? ch ",")%N then ret (inl tt)
        else emit_and_advance 1 (if (c =? ch "}")%N then hl_symbol_brace else hl_symbol_parens) ;; ret (inr tt)
      end
    else ret (inl tt)
  end.
Lemma group_round_is g s : cowel_group_round g s tt = (let! e := eof in if e then ret (inr tt) else cowel_consume_blank ;; let! x := cowel_expect_group_member g s in cowel_consume_blank ;; group_tail x).
Proof. reflexivity. Qed.
Lemma tail_close x rest : does (group_tail x) tt [(bs ")", Some hl_symbol_parens)] rest (inr tt) tt.
Proof. unfold group_tail. apply does_get. norm. change (bs ")" ++ rest) with (ch ")" :: rest). cbv beta iota. rewrite N.eqb_refl. eapply does_last; [apply does_emit; [reflexivity|discriminate]|apply does_ret]. Qed.
Lemma tail_comma x rest : does (group_tail x) tt [(bs ",", Some hl_symbol_punc)] rest (inl tt) tt.
Proof. unfold group_tail. apply does_get. norm. change (bs "," ++ rest) with (ch "," :: rest). cbv beta iota. change (ch "," =? ch ")")%N with false. rewrite N.eqb_refl. eapply does_last; [apply does_emit; [reflexivity|discriminate]|apply does_ret]. Qed.
Lemma tail_more c t : ~ In c [41; 44; 125]%N -> does (group_tail true) tt [] (c :: t) (inl tt) tt.
Proof.
  intros H. unfold group_tail. apply does_get. cbn [text map concat app]. change (ch ")") with 41%N. change (ch ",") with 44%N. change (ch "}") with 125%N. cbn [In] in H. rewrite !(proj2 (N.eqb_neq c _)) by intuition congruence. cbn [negb]. apply does_ret.
Qed.
Lemma blank_nil rest : cowel_blank [] rest. Proof. constructor. Qed.
Lemma app_ne (b : list piece) (s : str) t : text b ++ t :: s <> []. Proof. destruct (text b); discriminate. Qed.
(** A round with no member *)
Lemma round_empty f b q rest x c t : text q ++ rest = c :: t -> c = 41%N \/ c = 44%N -> cowel_blank b (c :: t) -> 1 <= f -> does (group_tail false) tt q rest x tt -> does (cowel_group_round (grp f) (seq f) tt) tt (b ++ q) rest x tt.
Proof.
  intros E Hc B F D. rewrite group_round_is. apply does_eof; [norm; rewrite E; apply app_ne|]. assert (So : cowel_solid (c :: t)) by (apply solid_close; auto). eapply does_bind; [apply does_blank; rewrite E; assumption|].
  eapply does_nil; [rewrite E; apply no_member; [apply grp_no; exact F|exact Hc]|]. eapply does_nil; [apply does_blank; [apply blank_nil|rewrite E; exact So]|]. exact D.
Qed.
(** A round with a member *)
Lemma round_member f b p b2 q rest x : cowel_blank b (text p ++ text b2 ++ text q ++ rest) -> cowel_member p (text b2 ++ text q ++ rest) -> Pmember p (text b2 ++ text q ++ rest) -> cowel_blank b2 (text q ++ rest) -> cowel_solid (text q ++ rest) ->
  length (text p) <= f -> does (group_tail true) tt q rest x tt -> does (cowel_group_round (grp f) (seq f) tt) tt (b ++ p ++ b2 ++ q) rest x tt.
Proof.
  intros B H IH B2 So L D. destruct (member_head p _ H) as (c & t & E & Hc). rewrite group_round_is. apply does_eof; [norm; rewrite E; cbn [app]; apply app_ne|].
  eapply does_bind; [apply does_blank; norm; [exact B|rewrite E; apply solid_member; exact Hc]|]. eapply does_bind; [norm; exact (IH f L)|]. eapply does_bind; [apply does_blank; assumption|exact D].
Qed.
Lemma case_members_end rest : Pmembers [(bs ")", Some hl_symbol_parens)] rest.
Proof.
  split; [left; reflexivity|]. intros b B f L F. apply iterates_end. eapply (round_empty f b _ rest _ 41%N rest); [norm; reflexivity|auto|exact B|exact F|apply tail_close].
Qed.
Lemma case_members_comma b m rest : cowel_blank b (text m ++ rest) -> Pmembers m rest -> Pmembers ((bs ",", Some hl_symbol_punc) :: b ++ m) rest.
Proof.
  intros B [_ H]. specialize (H b B). split; [right; left; eauto|]. intros b0 B0 f L F. lens. change (b0 ++ (bs ",", Some hl_symbol_punc) :: b ++ m) with (b0 ++ [(bs ",", Some hl_symbol_punc)] ++ (b ++ m)). rewrite app_assoc. norm_in B0.
  eapply (iterates_more _ _ _ _ tt tt _ tt tt); [|norm; apply (app_ne b0 [])|apply H; [norm; rewrite app_length; lia|exact F]]. eapply (round_empty f b0 _ _ _ 44%N); [norm; reflexivity|auto|exact B0|exact F|apply tail_comma].
Qed.
Lemma case_members_more p b m rest : cowel_member p (text b ++ text m ++ rest) -> Pmember p (text b ++ text m ++ rest) -> cowel_blank b (text m ++ rest) -> cowel_members m rest -> Pmembers m rest -> Pmembers (p ++ b ++ m) rest.
Proof.
  intros Hp IHp B Hm [St IH]. destruct (member_head p _ Hp) as (c & t & E & Hc). split.
  - right. right. exists c, (t ++ text b ++ text m). split; [norm; rewrite E; reflexivity|]. apply member_char_not. exact Hc.
  - intros b0 B0 f L F. lens. norm_in B0. pose proof (members_solid m rest Hm) as So. assert (N0 : forall q, text (b0 ++ p ++ q) <> []) by (intros q; norm; rewrite E; apply app_ne). destruct St as [-> |[(q & -> & Hq)|(x & u & Ex & Hx)]].
    + apply iterates_end. apply round_member; try assumption; [lia|apply tail_close].
    + replace (b0 ++ p ++ b ++ (bs ",", Some hl_symbol_punc) :: q) with ((b0 ++ p ++ b ++ [(bs ",", Some hl_symbol_punc)]) ++ q) by (rewrite <- !app_assoc; reflexivity).
      lens. rewrite text_cons in Hp, IHp, B, B0, So. rewrite <- ?app_assoc in Hp, IHp, B, B0, So.
      eapply (iterates_more _ _ _ _ tt tt (b0 ++ p ++ b ++ [(bs ",", Some hl_symbol_punc)]) tt tt q); [|apply N0|apply Hq; [lia|exact F]]. apply round_member; norm; try assumption; [lia|apply tail_comma].
    + replace (b0 ++ p ++ b ++ m) with ((b0 ++ p ++ b ++ []) ++ ([] ++ m)) by (rewrite app_nil_r, <- !app_assoc; reflexivity). eapply (iterates_more _ _ _ _ tt tt _ tt tt); [|apply N0|apply (IH [] (blank_nil _)); [cbn [app]; lia|exact F]].
      cbn [app]. apply round_member; try assumption; [lia|]. rewrite Ex. apply tail_more. exact Hx.
Qed.

(** ** Splices *)
Definition splice_tail : M unit (unit + unit) :=
  let! r := get_rem in
  match r with
  | [] => ret (inr tt)
  | c :: _ =>
    if (c =? ch ")")%N then emit_and_advance 1 hl_string_interpolation_delim ;; ret (inr tt)
    else if (c =? ch "}")%N then ret (inr tt)
    else cowel_token_or_error ;; ret (inl tt)
  end.
Lemma splice_round_is g s : cowel_splice_round g s tt = (let! e := eof in if e then ret (inr tt) else cowel_consume_blank ;; let! _ := cowel_expect_expression g s in cowel_consume_blank ;; splice_tail).
Proof. reflexivity. Qed.
Lemma splice_close rest : does splice_tail tt [(bs ")", Some hl_string_interpolation_delim)] rest (inr tt) tt.
Proof. unfold splice_tail. apply does_get. norm. change (bs ")" ++ rest) with (ch ")" :: rest). cbv beta iota. rewrite N.eqb_refl. eapply does_last; [apply does_emit; [reflexivity|discriminate]|apply does_ret]. Qed.
Lemma does_token p rest : cowel_operator p rest -> does cowel_token_or_error tt p rest tt tt.
Proof. intros H. unfold cowel_token_or_error. eapply does_last; [apply does_operator; exact H|apply does_ret]. Qed.
Lemma splice_operator p rest : cowel_operator p rest -> does splice_tail tt p rest (inl tt) tt.
Proof.
  intros H. unfold splice_tail. apply does_get. destruct (operator_head p rest H) as (c & t & E & Hc). rewrite E. cbn [app]. assert (Nc : c <> ch ")" /\ c <> ch "}").
  { unfold operator_char in Hc. split; intros ->; vm_compute in Hc; intuition congruence. }
  rewrite !(proj2 (N.eqb_neq c _)) by apply Nc. eapply does_last; [apply does_token; exact H|apply does_ret].
Qed.
Lemma splice_empty f b q rest x : cowel_blank b (text q ++ rest) -> cowel_solid (text q ++ rest) -> text q <> [] -> not_before (fun c => ~ free_char c) (text q ++ rest) -> (forall r, text q ++ rest <> bs "-infinity" ++ r) ->
  1 <= f -> does splice_tail tt q rest x tt -> does (cowel_splice_round (grp f) (seq f) tt) tt (b ++ q) rest x tt.
Proof.
  intros B So N0 H1 H2 F D. rewrite splice_round_is. apply does_eof; [norm; destruct (text q) as [|c t]; [congruence|apply app_ne]|]. eapply does_bind; [apply does_blank; assumption|].
  eapply does_nil; [apply no_expression; [apply grp_no; exact F|exact H1|exact H2]|]. eapply does_nil; [apply does_blank; [apply blank_nil|exact So]|exact D].
Qed.
Lemma splice_full f b e b2 q rest x : cowel_blank b (text e ++ text b2 ++ text q ++ rest) -> cowel_expression e (text b2 ++ text q ++ rest) -> Pexpression e (text b2 ++ text q ++ rest) -> cowel_blank b2 (text q ++ rest) -> cowel_solid (text q ++ rest) ->
  length (text e) <= f -> does splice_tail tt q rest x tt -> does (cowel_splice_round (grp f) (seq f) tt) tt (b ++ e ++ b2 ++ q) rest x tt.
Proof.
  intros B H IH B2 So L D. destruct (expression_head e _ H) as (c & t & E & Hc). rewrite splice_round_is. apply does_eof; [norm; rewrite E; cbn [app]; apply app_ne|].
  eapply does_bind; [apply does_blank; norm; [exact B|apply expression_solid; exact H]|]. eapply does_bind; [norm; exact (IH f L)|]. eapply does_bind; [apply does_blank; assumption|exact D].
Qed.
Lemma operator_ne p rest : cowel_operator p rest -> text p <> [].
Proof. intros H. destruct (operator_head p rest H) as (c & t & -> & _). discriminate. Qed.
Lemma operator_solid p rest : cowel_operator p rest -> cowel_solid (text p ++ rest).
Proof. intros H. destruct (operator_head p rest H) as (c & t & -> & Hc). apply solid_member. right. exact Hc. Qed.
Lemma case_operation_end rest : Poperation [(bs ")", Some hl_string_interpolation_delim)] rest. Proof. left. reflexivity. Qed.
Lemma case_operation_more p b s rest : cowel_operator p (text b ++ text s ++ rest) -> cowel_blank b (text s ++ rest) -> Poperand s rest -> Poperation (p ++ b ++ s) rest.
Proof. intros H B IH. right. exists p, (b ++ s). split; [reflexivity|]. split; [norm; exact H|]. apply IH. exact B. Qed.
Lemma case_operand_none p rest : cowel_operation p rest -> Poperation p rest -> Poperand p rest.
Proof.
  intros H St b B f L F. destruct St as [-> |(o & q & -> & Ho & Hq)].
  - apply iterates_end. apply splice_empty; [exact B|norm; apply solid_close; auto|discriminate|norm; apply not_before_cons; intros X; apply X; unfold free_char; vm_compute; intuition congruence|norm; apply starts_no; discriminate|exact F|apply splice_close].
  - rewrite app_assoc. lens. norm_in B. destruct (operator_free _ _ Ho) as [H1 H2]. eapply (iterates_more _ _ _ _ tt tt _ tt tt); [|norm; destruct (operator_head _ _ Ho) as (c & t & -> & _); apply app_ne|apply Hq; [lia|exact F]].
    apply splice_empty; try assumption; [apply operator_solid; exact Ho|eapply operator_ne; exact Ho|apply splice_operator; exact Ho].
Qed.
Lemma case_operand_some e b p rest : cowel_expression e (text b ++ text p ++ rest) -> Pexpression e (text b ++ text p ++ rest) -> cowel_blank b (text p ++ rest) -> cowel_operation p rest -> Poperation p rest -> Poperand (e ++ b ++ p) rest.
Proof.
  intros He IHe B2 H St b0 B f L F. pose proof (operation_solid p rest H) as So. lens. norm_in B. destruct St as [-> |(o & q & -> & Ho & Hq)].
  - apply iterates_end. apply splice_full; try assumption; [lia|apply splice_close].
  - replace (b0 ++ e ++ b ++ o ++ q) with ((b0 ++ e ++ b ++ o) ++ q) by (rewrite <- !app_assoc; reflexivity). lens. rewrite text_app, <- !app_assoc in He, IHe, B2, B, So. eapply (iterates_more _ _ _ _ tt tt _ tt tt); [|norm; destruct (expression_head _ _ He) as (c & t & -> & _); apply app_ne|apply Hq; [lia|exact F]].
    apply splice_full; try assumption; [lia|apply splice_operator; exact Ho].
Qed.

(** ** Line splices *)
Lemma line_newline l rest : cowel_line l rest -> exists c, In c (text l) /\ cowel_newline c.
Proof.
  intros H. induction H as [w rest [-> |[-> |[-> _]]]|w l rest _ _ _ H IH|p l rest _ H IH|p l rest _ H IH|e l rest _ _ H IH|p l rest _ H IH]; norm;
    try (destruct IH as (c & Hc & Nc); exists c; split; [apply in_or_app; right; exact Hc|exact Nc]).
  - exists 10%N. split; [left; reflexivity|vm_compute; auto].
  - exists 10%N. split; [right; left; reflexivity|vm_compute; auto].
  - exists 13%N. split; [left; reflexivity|vm_compute; auto].
Qed.
Lemma newline_found c s n : In c s -> cowel_newline c -> exists m, find_if_from (fun c => mem c [13; 10]%N) (firstn n s ++ s) (length (firstn n s)) = Some m.
Proof.
  intros H Nc. unfold find_if_from. rewrite skipn_app_exact. assert (E : exists i, find_if (fun c => mem c [13; 10]%N) s = Some i); [|destruct E as [i ->]; eexists; reflexivity].
  induction s as [|x s IH]; [contradiction|]. cbn [find_if]. destruct (mem x [13; 10]%N) eqn:M; [eauto|]. destruct H as [<-|H].
  - exfalso. destruct Nc as [<-|[<-|[]]]; discriminate M.
  - destruct (IH H) as [i ->]. eexists. reflexivity.
Qed.
(** The start of a round, if no new line comes next *)
Lemma line_start f p rest x : text p ++ rest <> [] -> not_before cowel_newline (text p ++ rest) ->
  does (let! b := cowel_expect_escape in if b then ret (inl tt) else try_comments (ret (inl tt))
    (let! b := cowel_expect_expression (grp f) (seq f) in if b then ret (inl tt) else
    let! r := get_rem in
    let n := cowel_match_whitespace r in
    if negb (n =? 0) then advance n ;; ret (inl tt)
    else cowel_token_or_error ;; ret (inl tt))) tt p rest x tt -> does (cowel_line_round (grp f) (seq f) tt) tt p rest x tt.
Proof.
  intros N0 H D. unfold cowel_line_round. apply does_eof; [exact N0|]. apply does_get. destruct (text p ++ rest) as [|c t]; [congruence|]. specialize (H c eq_refl). cbn beta in H. assert (C1 : c <> 13%N) by (intros ->; apply H; vm_compute; auto). assert (C2 : c <> 10%N) by (intros ->; apply H; vm_compute; auto).
  cbn [starts_with starts_with_ch]. rewrite !(proj2 (N.eqb_neq c _)) by congruence. cbn [andb orb]. exact D.
Qed.
Lemma iterate_line f p l rest : Pline l rest -> text p <> [] -> length (text p ++ text l) <= f -> does (cowel_line_round (grp f) (seq f) tt) tt p (text l ++ rest) (inl tt) tt -> iterates (cowel_line_round (grp f) (seq f)) tt rest tt tt tt (p ++ l).
Proof. intros H N0 L D. rewrite app_length in L. assert (1 <= length (text p)) by (destruct (text p); [congruence|cbn; lia]). eapply (iterates_more _ _ _ _ tt tt _ tt tt); [exact D|exact N0|apply H; lia]. Qed.
Lemma case_line_end w rest : newline w rest -> Pline [(w, None)] rest.
Proof.
  intros H f _ F. apply iterates_end. unfold cowel_line_round. destruct H as [-> |[-> |[-> H]]]; (apply does_eof; [norm; discriminate|]); apply does_get; norm; cbn [app starts_with starts_with_ch].
  - rewrite N.eqb_refl. change (10 =? 13)%N with false. cbn [andb orb]. eapply does_last; [apply does_advance; reflexivity|apply does_ret].
  - rewrite !N.eqb_refl. cbn [andb]. eapply does_last; [apply does_advance; reflexivity|apply does_ret].
  - rewrite !N.eqb_refl. replace (match rest with [] => false | b :: s2 => (b =? 10)%N && true end) with false; [cbn [andb]; change (13 =? 10)%N with false; cbn [orb]; eapply does_last; [apply does_advance; reflexivity|apply does_ret]|].
    symmetry. destruct rest as [|y r]; [reflexivity|]. specialize (H y eq_refl). cbn beta in H. rewrite (proj2 (N.eqb_neq y 10)) by congruence. reflexivity.
Qed.
Lemma blank_char_ne c : cowel_horizontal c -> ~ ident_start c /\ ~ digit c /\ ~ In c [46; 34; 123; 40; 45; 92]%N.
Proof. unfold cowel_horizontal, ident_start, letter, digit. cbn [In]. lia. Qed.
Lemma case_line_space w l rest : w <> [] -> Forall cowel_horizontal w -> not_before cowel_space (text l ++ rest) -> Pline l rest -> Pline ((w, None) :: l) rest.
Proof.
  intros N0 F R IH f L L1. rewrite text_cons in L. apply (iterate_line f [(w, None)]); [exact IH|rewrite text_one; exact N0|rewrite text_one; exact L|]. destruct w as [|c w]; [congruence|].
  pose proof F as F'. apply Forall_inv in F' as Fc. destruct (blank_char_ne c Fc) as (C1 & C2 & C3). cbn [In] in C3.
  apply line_start; [norm; discriminate|norm; apply not_before_cons; unfold cowel_horizontal, cowel_newline in *; cbn [In] in *; lia|].
  skip_ does_no_escape; [norm; apply no_escape, not_before_cons; lia|]. apply skip_comments; [norm; intros x t [= E _]; lia|].
  skip_ no_expression; [apply grp_no; exact L1|norm; apply not_before_cons; intros X; apply X; unfold free_char; cbn [In]; intuition congruence|norm; apply starts_no; lia|].
  apply does_get. cbv zeta. norm. assert (E : cowel_match_whitespace ((c :: w) ++ text l ++ rest) = length (c :: w)). { apply (length_if_exact is_html_whitespace cowel_space); [exact space_iff| |exact R]. eapply Forall_impl; [|exact F]. intros a Ha. left. exact Ha. }
  rewrite E. cbn [length Nat.eqb negb]. eapply does_last; [apply does_advance; reflexivity|apply does_ret].
Qed.
Lemma case_line_escape p l rest : cowel_escape_sequence p (text l ++ rest) -> Pline l rest -> Pline (p ++ l) rest.
Proof.
  intros H IH f L L1. rewrite text_app in L. destruct (escape_head _ _ H) as (t & E). apply iterate_line; [exact IH|rewrite E; discriminate|exact L|].
  apply line_start; [rewrite E; discriminate|rewrite E; apply not_before_cons; vm_compute; intuition congruence|]. eapply does_last; [apply does_escape; exact H|apply does_ret].
Qed.
Lemma case_line_comment p l rest : cowel_comment p (text l ++ rest) -> Pline l rest -> Pline (p ++ l) rest.
Proof.
  intros H IH f L L1. rewrite text_app in L. destruct (comment_head _ _ H) as (c & t & E & _). apply iterate_line; [exact IH|rewrite E; discriminate|exact L|].
  apply line_start; [rewrite E; discriminate|rewrite E; apply not_before_cons; vm_compute; intuition congruence|]. skip_ does_no_escape; [apply comment_no_escape; exact H|]. apply does_comments; [exact H|apply does_ret].
Qed.
Lemma member_line c t : member_char c -> not_before cowel_newline (c :: t) /\ cowel_match_escape (c :: t) = Ok (mk_cowel_escape 0 false) /\ no_comment (c :: t).
Proof.
  intros H. destruct (member_char_not c H) as (H1 & H2 & _). split; [apply not_before_cons; intros X; apply H1; right; exact X|]. split; [apply no_escape, not_before_cons; exact H2|]. intros x u [= E _]. congruence.
Qed.
Lemma case_line_expression e l rest : cowel_expression e (text l ++ rest) -> Pexpression e (text l ++ rest) -> Pline l rest -> Pline (e ++ l) rest.
Proof.
  intros H IHe IH f L L1. rewrite text_app in L. destruct (expression_head _ _ H) as (c & t & E & Hc). destruct (member_line c (t ++ text l ++ rest) (or_introl Hc)) as (M1 & M2 & M3).
  apply iterate_line; [exact IH|rewrite E; discriminate|exact L|]. apply line_start; [rewrite E; discriminate|rewrite E; exact M1|]. skip_ does_no_escape; [rewrite E; exact M2|]. apply skip_comments; [rewrite E; exact M3|].
  eapply does_last; [apply IHe; rewrite app_length in L; lia|apply does_ret].
Qed.
Lemma case_line_operator p l rest : cowel_operator p (text l ++ rest) -> Pline l rest -> Pline (p ++ l) rest.
Proof.
  intros H IH f L L1. rewrite text_app in L. destruct (operator_head _ _ H) as (c & t & E & Hc). destruct (member_line c (t ++ text l ++ rest) (or_intror Hc)) as (M1 & M2 & M3). destruct (operator_free _ _ H) as [F1 F2].
  apply iterate_line; [exact IH|rewrite E; discriminate|exact L|]. apply line_start; [rewrite E; discriminate|rewrite E; exact M1|]. skip_ does_no_escape; [rewrite E; exact M2|]. apply skip_comments; [rewrite E; exact M3|].
  skip_ no_expression; [apply grp_no; exact L1|exact F1|exact F2|]. apply does_get. cbv zeta. replace (cowel_match_whitespace (text p ++ text l ++ rest)) with 0; [|symmetry; apply (length_if_exact is_html_whitespace cowel_space []); [exact space_iff|constructor|apply (operator_solid _ _ H)]].
  cbn [Nat.eqb negb]. eapply does_last; [apply does_token; exact H|apply does_ret].
Qed.

(** ** Content *)
Lemma content_start f k lvl p rest x : (0 <= lvl)%Z -> cowel_match_escape (text p ++ rest) = Ok (mk_cowel_escape 0 false) ->
  does (let! b := cowel_expect_directive_splice (grp f) (seq f) in if b then ret (true, lvl) else
  let! b := cowel_expect_splice (grp f) (seq f) in if b then ret (true, lvl) else
  let! b := cowel_expect_line_splice (grp f) (seq f) in if b then ret (true, lvl) else
  try_comments (ret (true, lvl)) (cowel_expect_text k lvl)) tt p rest x tt -> does (cowel_expect_content (grp f) (seq f) k lvl) tt p rest x tt.
Proof. intros L E D. unfold cowel_expect_content. apply does_check; [apply Z.leb_le; exact L|]. skip_ does_no_escape; [exact E|exact D]. Qed.
Lemma no_directive f s : (forall c t, s = 92%N :: c :: t -> ~ ident_start c) -> does (cowel_expect_directive_splice (grp f) (seq f)) tt [] s false tt.
Proof.
  intros H. unfold cowel_expect_directive_splice. apply does_get. cbn [text map concat app]. destruct s as [|x s]; [apply does_ret|]. cbn [starts_with_ch]. destruct (N.eqb_spec x 92) as [->|]; [|apply does_ret]. cbn [negb skipn]. cbv zeta. rewrite no_identifier; [apply does_ret|]. destruct s as [|c t]; [intros y E; discriminate E|]. apply not_before_cons. eapply H. reflexivity.
Qed.
Lemma no_splice f s : (forall c t, s = 92%N :: c :: t -> c <> 40%N) -> does (cowel_expect_splice (grp f) (seq f)) tt [] s false tt.
Proof.
  intros H. unfold cowel_expect_splice. apply does_get. cbn [text map concat app]. destruct (starts_with s [92; 40]%N) eqn:E; [|apply does_ret]. apply starts_with_app in E as [t ->]. elim (H 40%N t eq_refl eq_refl).
Qed.
Lemma no_line_splice f s : (forall c t, s = 92%N :: c :: t -> c <> 32%N) -> does (cowel_expect_line_splice (grp f) (seq f)) tt [] s false tt.
Proof.
  intros H. unfold cowel_expect_line_splice. apply does_get. cbn [text map concat app]. destruct (starts_with s [92; 32]%N) eqn:E; [|apply does_ret]. apply starts_with_app in E as [t ->]. elim (H 32%N t eq_refl eq_refl).
Qed.
Lemma case_item_directive n a b rest : identifier n -> not_before ident_char (text a ++ text b ++ rest) -> Parguments a (text b ++ rest) -> Poptional_block b rest -> Pitem ((92%N :: n, Some hl_markup_tag) :: a ++ b) rest.
Proof.
  intros H R Ha Hb f k lvl L Z0. lens. destruct (Ha f ltac:(lia) ltac:(lia)) as [x Dx]. destruct (Hb f ltac:(lia)) as [y Dy]. destruct (identifier_head n H) as (c & u & En & Hc).
  apply content_start; [exact Z0|norm; rewrite En; apply item_no_escape; auto|]. apply does_last with (x := true) (s1 := tt); [|apply does_ret]. unfold cowel_expect_directive_splice. apply does_get. norm. cbn [app starts_with_ch]. rewrite N.eqb_refl. cbn [negb skipn]. cbv zeta. rewrite identifier_exact by assumption.
  rewrite En at 1. cbn [length Nat.eqb]. eapply does_cons; [apply does_emit; [reflexivity|discriminate]|]. eapply does_bind; [exact Dx|]. eapply does_last; [exact Dy|apply does_ret].
Qed.
Lemma case_item_splice b s rest : cowel_blank b (text s ++ rest) -> Poperand s rest -> Pitem ((bs "\(", Some hl_string_interpolation_delim) :: b ++ s) rest.
Proof.
  intros B H f k lvl L Z0. lens. change (length (bs "\(")) with 2 in L. change (bs "\(") with [92; 40]%N. apply content_start; [exact Z0|norm; apply (item_no_escape 40%N); auto|]. skip_ no_directive; [norm; intros c t [= <- _]; unfold ident_start, letter; lia|].
  apply does_last with (x := true) (s1 := tt); [|apply does_ret]. unfold cowel_expect_splice. apply does_get. norm. change (starts_with ([92; 40]%N ++ text b ++ text s ++ rest) [92; 40]%N) with true. cbn [negb]. eapply does_cons; [apply does_emit; [reflexivity|discriminate]|].
  eapply does_last; [apply does_loop; apply (H b B); [norm; rewrite app_length|]; lia|apply does_ret].
Qed.
Lemma case_item_line l rest : cowel_line l rest -> Pline l rest -> Pitem ((bs "\ ", Some hl_string_interpolation_delim) :: l) rest.
Proof.
  intros Hl H f k lvl L Z0. lens. change (length (bs "\ ")) with 2 in L. change (bs "\ ") with [92; 32]%N. apply content_start; [exact Z0|norm; apply (item_no_escape 32%N); auto|]. skip_ no_directive; [norm; intros c t [= <- _]; unfold ident_start, letter; lia|].
  skip_ no_splice; [norm; intros c t [= <- _]; discriminate|].
  apply does_last with (x := true) (s1 := tt); [|apply does_ret]. unfold cowel_expect_line_splice. apply does_get. norm. change (starts_with ([92; 32]%N ++ text l ++ rest) [92; 32]%N) with true. cbn [negb].
  destruct (line_newline l rest Hl) as (c & Hc & Nc). assert (E : exists m, find_first_of ([92; 32]%N ++ text l ++ rest) [13; 10]%N 2 = Some m).
  { assert (Hin : In c (text l ++ rest)) by (apply in_or_app; left; exact Hc). destruct (newline_found c (text l ++ rest) 0 Hin Nc) as [m Hm]. cbn [firstn app length] in Hm. unfold find_if_from in Hm. cbn [skipn] in Hm. unfold find_first_of, find_if_from. cbn [skipn app]. destruct (find_if _ _); [eexists; reflexivity|discriminate]. }
  destruct E as [m ->]. eapply does_cons; [apply does_emit; [reflexivity|discriminate]|]. eapply does_last; [apply does_loop; apply H; lia|apply does_ret].
Qed.
Lemma case_content_end k rest : content_closed k rest -> Pcontent k 0 [] rest.
Proof.
  intros H f _. apply iterates_end. unfold cowel_sequence_round. cbn [Z.of_nat Z.ltb]. change (0 <? 0)%Z with false. cbv iota. assert (N92 : not_before (fun c => c = 92%N) rest).
  { destruct k; cbn [content_closed] in H; [rewrite H; intros y E; discriminate E| | |]; destruct H as (c & t & -> & ->); apply not_before_cons; discriminate. }
  assert (K : forall c t, rest <> 92%N :: c :: t) by (intros c t ->; apply (N92 92%N eq_refl); reflexivity). apply does_nil with (x := (false, level_after k 0 rest)) (s1 := tt); [|apply does_ret]. apply content_start; [lia|apply no_escape; exact N92|].
  skip_ no_directive; [intros c t E; elim (K c t E)|]. skip_ no_splice; [intros c t E; elim (K c t E)|]. skip_ no_line_splice; [intros c t E; elim (K c t E)|]. apply skip_comments; [intros c t E; elim (K c t E)|]. apply (does_text_end k 0); [reflexivity|exact H].
Qed.
Lemma content_iterate f k n lvl p l rest : (0 <= lvl)%Z -> lvl = Z.of_nat n -> text p <> [] -> length (text p ++ text l) <= f -> Pcontent k n l rest -> does (cowel_expect_content (grp f) (seq f) (kind_of k) lvl) tt p (text l ++ rest) (true, lvl) tt ->
  iterates (cowel_sequence_round (grp f) (seq f) (kind_of k)) tt rest tt lvl tt (p ++ l).
Proof.
  intros Z0 -> N0 L IH D. rewrite app_length in L. eapply (iterates_more _ _ _ _ (Z.of_nat n) tt _ (Z.of_nat n) tt); [|exact N0|apply IH; lia]. unfold cowel_sequence_round. rewrite (proj2 (Z.ltb_ge _ _)) by lia. eapply does_last; [exact D|]. apply does_ret.
Qed.
Lemma content_nonneg k n : (0 <= Z.of_nat n)%Z /\ k = k :> cowel_context. Proof. split; [lia|reflexivity]. Qed.
Lemma case_content_text k n w m l rest : w <> [] -> cowel_plain k n w m -> l = [] \/ begins (fun c => c = 92%N) (text l) -> cowel_content k m l rest -> Pcontent k m l rest -> Pcontent k n ((w, text_highlight k) :: l) rest.
Proof.
  intros N0 Hw Hl Hc IH f L. rewrite text_cons, app_length in L. assert (N92 : not_before (fun c => c = 92%N) (w ++ text l ++ rest)) by (destruct w as [|c w]; [congruence|]; apply not_before_cons; eapply plain_head; exact Hw).
  assert (K : forall c t, w ++ text l ++ rest <> 92%N :: c :: t) by (intros c t E; rewrite E in N92; apply (N92 92%N eq_refl); reflexivity).
  assert (St : begins (fun c => c = 92%N) (text l ++ rest) \/ m = 0 /\ content_closed k (text l ++ rest)).
  { destruct Hl as [-> |(c & t & -> & ->)]; [right|left; exists 92%N, (t ++ rest); split; reflexivity]. cbn [text map concat app]. remember (@nil piece) as z eqn:Ez. destruct Hc as [k rest Hc|k n' w' m' l' rest _ _ _ _|k n' p l' rest Hp _|k n' p l' rest Hp _|k n' p l' rest _ Hp _]; [auto|discriminate| | |].
    - destruct (escape_head _ _ Hp) as (t & Et). apply app_eq_nil in Ez as [-> _]. discriminate.
    - destruct (comment_head _ _ Hp) as (x & t & Et & _). apply app_eq_nil in Ez as [-> _]. discriminate.
    - destruct (item_head _ _ Hp) as (x & t & Et & _). apply app_eq_nil in Ez as [-> _]. discriminate. }
  assert (D : does (cowel_expect_content (grp f) (seq f) (kind_of k) (Z.of_nat n)) tt [(w, text_highlight k)] (text l ++ rest) (true, level_after k m (text l ++ rest)) tt).
  { apply content_start; [lia|rewrite text_one; apply no_escape; exact N92|]. skip_ no_directive; [rewrite text_one; intros c t E; elim (K c t E)|]. skip_ no_splice; [rewrite text_one; intros c t E; elim (K c t E)|]. skip_ no_line_splice; [rewrite text_one; intros c t E; elim (K c t E)|]. apply skip_comments; [rewrite text_one; intros c t E; elim (K c t E)|]. apply does_text; assumption. }
  change ((w, text_highlight k) :: l) with ([(w, text_highlight k)] ++ l). eapply (iterates_more _ _ _ _ (Z.of_nat n) tt _ (level_after k m (text l ++ rest)) tt); [unfold cowel_sequence_round; rewrite (proj2 (Z.ltb_ge _ _)) by lia; eapply does_last; [exact D|apply does_ret]|rewrite text_one; exact N0|].
  unfold level_after. destruct k; try (apply IH; lia). destruct (text l ++ rest) as [|c t] eqn:Er; [apply IH; lia|]. destruct (N.eqb_spec c (ch "}")) as [->|]; [|apply IH; lia].
  destruct Hl as [-> |(x & u & Ex & ->)]; [|rewrite Ex in Er; discriminate Er]. apply iterates_end. unfold cowel_sequence_round. change (-1 <? 0)%Z with true. cbv iota. apply does_ret.
Qed.
Lemma case_content_escape k n p l rest : cowel_escape_sequence p (text l ++ rest) -> Pcontent k n l rest -> Pcontent k n (p ++ l) rest.
Proof.
  intros H IH f L. rewrite text_app in L. destruct (escape_head _ _ H) as (t & Et). apply (content_iterate f k n); [lia|reflexivity|rewrite Et; discriminate|exact L|exact IH|]. unfold cowel_expect_content. apply does_check; [apply Z.leb_le; lia|]. eapply does_last; [apply does_escape; exact H|]. apply does_ret.
Qed.
Lemma case_content_comment k n p l rest : cowel_comment p (text l ++ rest) -> Pcontent k n l rest -> Pcontent k n (p ++ l) rest.
Proof.
  intros H IH f L. rewrite text_app in L. destruct (comment_head _ _ H) as (c & t & Et & Hc). assert (Nc : c = 58%N \/ c = 42%N) by (destruct Hc as [<-|[<-|[]]]; auto).
  apply (content_iterate f k n); [lia|reflexivity|rewrite Et; discriminate|exact L|exact IH|]. apply content_start; [lia|apply comment_no_escape; exact H|].
  skip_ no_directive; [rewrite Et; intros y u [= <- _]; unfold ident_start, letter; lia|]. skip_ no_splice; [rewrite Et; intros y u [= <- _]; lia|]. skip_ no_line_splice; [rewrite Et; intros y u [= <- _]; lia|]. apply does_comments; [exact H|apply does_ret].
Qed.
Lemma case_content_item k n p l rest : cowel_item p (text l ++ rest) -> Pitem p (text l ++ rest) -> Pcontent k n l rest -> Pcontent k n (p ++ l) rest.
Proof.
  intros Hp H IH f L. rewrite text_app in L. destruct (item_head _ _ Hp) as (c & t & Et & _). apply (content_iterate f k n); [lia|reflexivity|rewrite Et; discriminate|exact L|exact IH|]. apply H; [rewrite app_length in L|]; lia.
Qed.

(** ** All of it *)
Lemma cowel_exact :
  (forall k n l rest, cowel_content k n l rest -> cowel_content k n l rest /\ Pcontent k n l rest) /\
  (forall p rest, cowel_item p rest -> cowel_item p rest /\ Pitem p rest) /\ (forall p rest, cowel_arguments p rest -> cowel_arguments p rest /\ Parguments p rest) /\
  (forall p rest, cowel_optional_block p rest -> cowel_optional_block p rest /\ Poptional_block p rest) /\ (forall p rest, S_LangCowel.cowel_block p rest -> S_LangCowel.cowel_block p rest /\ Pblock p rest) /\
  (forall p rest, cowel_group p rest -> cowel_group p rest /\ Pgroup p rest) /\ (forall p rest, cowel_members p rest -> cowel_members p rest /\ Pmembers p rest) /\ (forall p rest, cowel_member p rest -> cowel_member p rest /\ Pmember p rest) /\
  (forall p rest, cowel_expression p rest -> cowel_expression p rest /\ Pexpression p rest) /\ (forall p rest, cowel_operand p rest -> cowel_operand p rest /\ Poperand p rest) /\ (forall p rest, cowel_operation p rest -> cowel_operation p rest /\ Poperation p rest) /\
  (forall p rest, cowel_line p rest -> cowel_line p rest /\ Pline p rest).
Proof.
  apply cowel_min; intros; repeat match goal with H : _ /\ _ |- _ => destruct H end; (split; [econstructor; eassumption|]).
  - apply case_content_end; assumption.
  - eapply case_content_text; eassumption.
  - apply case_content_escape; assumption.
  - apply case_content_comment; assumption.
  - apply case_content_item; assumption.
  - apply case_item_directive; assumption.
  - apply case_item_splice; assumption.
  - apply case_item_line; assumption.
  - intros f _ F. exists false. apply grp_no; assumption.
  - intros f L _. exists true. auto.
  - apply case_no_block; assumption.
  - intros f L. exists true. auto.
  - apply case_block; assumption.
  - apply case_group; assumption.
  - apply case_members_end.
  - apply case_members_comma; assumption.
  - apply case_members_more; assumption.
  - apply case_named; assumption.
  - apply case_quoted; assumption.
  - apply case_ellipsis.
  - apply case_member_expression; assumption.
  - apply case_member_operator; assumption.
  - apply case_call; assumption.
  - apply case_word; assumption.
  - apply case_fun; assumption.
  - apply case_minus_infinity; assumption.
  - apply case_number; assumption.
  - apply case_string; assumption.
  - apply case_block_expression; assumption.
  - apply case_group_expression; assumption.
  - apply case_operand_none; assumption.
  - apply case_operand_some; assumption.
  - apply case_operation_end.
  - apply case_operation_more; assumption.
  - apply case_line_end; assumption.
  - apply case_line_space; assumption.
  - apply case_line_escape; assumption.
  - apply case_line_comment; assumption.
  - apply case_line_expression; assumption.
  - apply case_line_operator; assumption.
Qed.

Lemma does_run {S A} (m : M S A) s l x s' : does m s l [] x s' -> m (mk_hst (text l) 0 [] s) = Ok (x, mk_hst [] (length (text l)) (rev (tokens 0 l)) s').
Proof. intros D. specialize (D 0 []). rewrite !app_nil_r in D. unfold wp in D. destruct (m _) as [[b st]|]; [|contradiction]. destruct D as [-> ->]. reflexivity. Qed.
(** ** C128: the tokens of a COWEL document *)
Theorem C128_cowel_document : forall l, cowel_pieces l -> tokenizes highlight_cowel l.
Proof.
  intros l H strict. destruct (proj1 cowel_exact _ _ _ _ H) as [_ P]. specialize (P (length (text l)) (le_n _)).
  assert (D : does (snd (cowel_nested (length (text l) + 1)) cowel_document ;; ret true) tt l [] true tt).
  { rewrite Nat.add_1_r. cbn [cowel_nested snd]. eapply does_last; [apply does_loop; exact P|apply does_ret]. }
  apply does_run in D. unfold highlight_cowel, run. rewrite D. cbn [rops]. rewrite rev_involutive. reflexivity.
Qed.
Print Assumptions C128_cowel_document.
