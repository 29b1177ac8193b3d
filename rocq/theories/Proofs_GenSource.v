(** Proofs for gen_source.rs: splitting rustfmt's output at the markers gives the statements, and dedenting gives their own texts. *)
From Coq Require Import Lia.
From Verif Require Import Base BaseLemmas Model_Script Model_Address Model_Text Model_MacroParse Model_MacroOut Model_GenSource Spec_Text Spec_GenSource Proofs_Text.
Local Open Scope string_scope.
Local Open Scope list_scope.
Local Open Scope Z_scope.

Lemma strip_spec : forall p t r, strip p t = Some r <-> t = p ++ r.
Proof.
  induction p as [|a p IH]; intros t r; cbn [strip app].
  - split; [intros [= ->]; reflexivity|intros ->; reflexivity].
  - destruct t as [|b t]; [split; discriminate|]. destruct (Z.eqb_spec a b) as [->|H].
    + rewrite IH. split; [intros ->; reflexivity|intros [= ->]; reflexivity].
    + split; [discriminate|intros [= E _]; congruence].
Qed.
Lemma strip_app p t : strip p (p ++ t) = Some t.
Proof. now apply strip_spec. Qed.
Lemma skip_space_spec : forall t, exists w, t = w ++ skip_space t /\ Forall (fun c => is_space c = true) w.
Proof.
  induction t as [|c t (w & E & H)]; cbn [skip_space]; [now exists []|]. destruct (is_space c) eqn:Ec; [|now exists []].
  exists (c :: w). cbn [app]. rewrite <- E. split; [reflexivity|now constructor].
Qed.
Lemma is_space_iff c : is_space c = true <-> space_char c.
Proof.
  unfold is_space, space_char. cbn [In]. rewrite !Bool.orb_true_iff, !Bool.andb_true_iff, !Z.leb_le, !Z.eqb_eq. lia.
Qed.
Lemma match_inv t r : match_separator t = Some r -> exists w rest, t = w ++ marker ++ rest /\ Forall (fun c => is_space c = true) w.
Proof.
  unfold match_separator. destruct (skip_space_spec t) as (w & E & H). destruct (strip separator (skip_space t)) as [x|] eqn:Ex; [|discriminate]. apply strip_spec in Ex.
  intros _. exists w, x. split; [|exact H]. rewrite Ex in E. exact E.
Qed.
Lemma marker_chars : Forall (fun c => c <> 10 /\ c <> 32) marker.
Proof. vm_compute. repeat constructor; discriminate. Qed.
Lemma in_marker c : In c marker -> c <> 10 /\ c <> 32.
Proof. apply (proj1 (Forall_forall _ _) marker_chars). Qed.

(** A word without line breaks that starts before a line break ends before it. *)
Lemma word_before x t w rest : ~ In 10 w -> x ++ 10 :: t = w ++ rest -> exists y, x = w ++ y.
Proof.
  intros H E. apply app_eq_app in E as (l & [(E1 & E2)|(E1 & E2)]); [now exists l|]. destruct l as [|c l]; [rewrite app_nil_r in E1; exists []; now rewrite app_nil_r|].
  cbn in E2. injection E2 as <- _. exfalso. apply H. rewrite E1. apply in_or_app. right. now left.
Qed.
Lemma no_match x c t : ~ is_space c = true -> ~ occurs marker (x ++ [c]) -> match_separator ((x ++ [c]) ++ 10 :: t) = None.
Proof.
  intros Hc Ho. destruct (match_separator _) as [r|] eqn:E; [|reflexivity]. exfalso. apply match_inv in E as (w & rest & E & Hw).
  apply app_eq_app in E as (l & [(E1 & E2)|(E1 & E2)]).
  - symmetry in E2. apply word_before in E2 as (y & ->); [|intros H; apply in_marker in H; lia]. apply Ho. exists w, y. exact E1.
  - rewrite E1 in Hw. apply Hc. rewrite Forall_forall in Hw. apply Hw. apply in_or_app. left. apply in_or_app. right. now left.
Qed.
Lemma occurs_app_r w a b : occurs w b -> occurs w (a ++ b).
Proof. intros (p & q & ->). exists (a ++ p), q. now rewrite app_assoc. Qed.
Lemma occurs_app_l w a b : occurs w a -> occurs w (a ++ b).
Proof. intros (p & q & ->). exists p, (q ++ b). now rewrite <- !app_assoc. Qed.
Lemma skip_text : forall x c t f before, ~ is_space c = true -> ~ occurs marker (x ++ [c]) ->
  split_from (length (x ++ [c]) + f) before ((x ++ [c]) ++ 10 :: t) = split_from f (before ++ x ++ [c]) (10 :: t).
Proof.
  induction x as [|a x IH]; intros c t f before Hc Ho.
  - pose proof (no_match [] c t Hc Ho) as N. cbn [app length Nat.add split_from] in *. rewrite N. reflexivity.
  - pose proof (no_match (a :: x) c t Hc Ho) as N. cbn [app length Nat.add split_from] in *. rewrite N. rewrite IH; [now rewrite <- app_assoc|exact Hc|].
    intros H. apply Ho. apply (occurs_app_r _ [a]) in H. exact H.
Qed.

(** Lines *)
Lemma block_text_cons l r : block_text (l :: r) = l ++ concat (map (fun x => 10 :: x) r).
Proof. revert l. induction r as [|x r IH]; intros l; [cbn; now rewrite app_nil_r|]. change (block_text (l :: x :: r)) with (l ++ newline ++ block_text (x :: r)). rewrite IH. reflexivity. Qed.
Lemma line_occurs w b l : In l b -> occurs w l -> occurs w (block_text b).
Proof.
  destruct b as [|l0 r]; [intros []|]. rewrite block_text_cons. intros [->|H] Ho; [now apply occurs_app_l|]. apply occurs_app_r.
  apply in_split in H as (r1 & r2 & ->). rewrite map_app, concat_app. apply occurs_app_r. cbn [map concat]. apply occurs_app_l. now apply (occurs_app_r _ [10]).
Qed.
Lemma occurs_line w : ~ In 10 w -> w <> [] -> forall b, occurs w (block_text b) -> exists l, In l b /\ occurs w l.
Proof.
  intros H Hn. destruct b as [|l r]; [intros (a & c & E); cbn in E; destruct a, w; try discriminate; now contradiction Hn|]. revert l.
  induction r as [|x r IH]; intros l (a & c & E).
  - cbn [block_text] in E. exists l. split; [now left|now exists a, c].
  - change (block_text (l :: x :: r)) with (l ++ 10 :: block_text (x :: r)) in E. apply app_eq_app in E as (y & [(E1 & E2)|(E1 & E2)]).
    + symmetry in E2. apply word_before in E2 as (z & ->); [|exact H]. exists l. split; [now left|]. exists a, z. exact E1.
    + destruct y as [|d y].
      * cbn [app] in E2. destruct w as [|d w]; [now contradiction Hn|]. injection E2 as <- _. exfalso. apply H. now left.
      * cbn [app] in E2. injection E2 as <- E2. destruct (IH x) as (l' & Hl & Ho); [now exists y, c|]. exists l'. split; [now right|exact Ho].
Qed.
Lemma marker_nonl : ~ In 10 marker.
Proof. intros H. apply in_marker in H. lia. Qed.
Lemma marker_ne : marker <> [].
Proof. vm_compute. discriminate. Qed.
Lemma occurs_unspaced : forall l, occurs marker (32 :: l) -> occurs marker l.
Proof.
  intros l (a & c & E). destruct a as [|d a]; [|injection E as _ E; now exists a, c]. exfalso. destruct marker as [|m ms] eqn:Em; [now apply marker_ne|].
  injection E as E _. pose proof (in_marker m) as H. rewrite Em in H. specialize (H (or_introl eq_refl)). lia.
Qed.
Lemma indented_no_marker b : ~ occurs marker (block_text b) -> ~ occurs marker (10 :: block_text (indented b)).
Proof.
  intros H Ho. assert (occurs marker (block_text (indented b))) as Ho'.
  { destruct Ho as (a & c & E). destruct a as [|d a]; [|injection E as _ E; now exists a, c]. exfalso. destruct marker as [|m ms] eqn:Em; [now apply marker_ne|]. injection E as E _. pose proof (in_marker m) as K. rewrite Em in K. specialize (K (or_introl eq_refl)). lia. }
  apply (occurs_line _ marker_nonl marker_ne) in Ho' as (l & Hl & Hm). unfold indented in Hl. apply in_map_iff in Hl as (l0 & <- & Hl). apply H. apply (line_occurs _ _ _ Hl).
  destruct l0 as [|d l0]; [exact Hm|]. change (text "    " ++ d :: l0) with (32 :: 32 :: 32 :: 32 :: d :: l0) in Hm. now do 4 apply occurs_unspaced in Hm.
Qed.
Lemma last_char_indented : forall b t c, block_text b = t ++ [c] -> c <> 10 -> exists t', block_text (indented b) = t' ++ [c].
Proof.
  intros b. destruct b as [|l r]; [intros t c E; destruct t; discriminate|]. revert l. induction r as [|x r IH]; intros l t c E Hc.
  - cbn [block_text indented map] in *. destruct l as [|d l]; [destruct t; discriminate|]. exists (text "    " ++ t). rewrite <- app_assoc, <- E. reflexivity.
  - change (block_text (l :: x :: r)) with ((l ++ newline) ++ block_text (x :: r)) in E || (change (block_text (l :: x :: r)) with (l ++ newline ++ block_text (x :: r)) in E; rewrite app_assoc in E).
    assert (exists s, block_text (x :: r) = s ++ [c]) as (s & Es).
    { destruct (list_snoc (block_text (x :: r))) as [En|(s & d & En)]; rewrite En in E.
      - rewrite app_nil_r in E. apply app_inj_tail in E as (_ & <-). now contradiction Hc.
      - rewrite app_assoc in E. apply app_inj_tail in E as (_ & ->). now exists s. }
    destruct (IH _ _ _ Es Hc) as (t' & Et). unfold indented in *. cbn [map] in *. match goal with |- exists _, block_text (?a :: ?b :: ?d) = _ => change (block_text (a :: b :: d)) with (a ++ newline ++ block_text (b :: d)) end.
    rewrite Et. eexists. rewrite !app_assoc. reflexivity.
Qed.

(** Splitting *)
Lemma body_nl bs t : body bs t -> exists t', t = 10 :: t'.
Proof. intros []; eexists; reflexivity. Qed.
Lemma marker_match t : match_separator (10 :: text "    " ++ marker ++ text "()" ++ text ";" ++ t) = Some t.
Proof. vm_compute. reflexivity. Qed.
Lemma marker_match_end : match_separator (10 :: text "    " ++ marker ++ text "()" ++ text "" ++ newline ++ text "}" ++ newline) = Some (text "}" ++ newline).
Proof. vm_compute. reflexivity. Qed.
Lemma split_end1 f : split_from (4 + f) [] (newline ++ text "}" ++ newline) = [newline ++ text "}" ++ newline].
Proof. reflexivity. Qed.
Lemma split_end2 f : split_from (3 + f) [] (text "}" ++ newline) = [text "}" ++ newline].
Proof. reflexivity. Qed.
Definition piece (b : block) : list Z := 10 :: block_text (indented b).
Lemma body_split : forall bs t, body bs t -> Forall proper bs -> forall f, (length t < f)%nat -> exists tail, split_from f [] t = map piece bs ++ [tail].
Proof.
  induction 1 as [|b bs semi t H IH Hsemi]; intros Hp f Hf.
  - destruct f as [|[|[|[|f]]]]; try (cbn in Hf; lia). eexists. apply (split_end1 f).
  - inversion Hp as [|? ? (_ & _ & (tb & c & Eb & Hc) & Hm) Hp']; subst. assert (c <> 10) as Hc10 by (intros ->; apply Hc; left; lia).
    destruct (last_char_indented _ _ _ Eb Hc10) as (t' & Et).
    assert (piece b = (10 :: t') ++ [c]) as Ep by (unfold piece; rewrite Et; reflexivity).
    remember (10 :: text "    " ++ marker ++ text "()" ++ text (if semi then ";" else "") ++ t) as sep eqn:Es.
    assert (newline ++ block_text (indented b) ++ newline ++ text "    " ++ marker ++ text "()" ++ text (if semi then ";" else "") ++ t = piece b ++ sep) as E.
    { rewrite Es. unfold piece, newline. cbn [app]. reflexivity. }
    rewrite E in *. rewrite app_length in Hf. assert (exists n, f = (length (piece b) + S n)%nat /\ (length t < n)%nat) as (n & -> & Hn).
    { exists (f - length (piece b) - 1)%nat. assert (length t < length sep)%nat by (rewrite Es; cbn [length app]; rewrite !app_length; lia). lia. }
    assert (~ is_space c = true) as Hc' by (rewrite is_space_iff; exact Hc).
    assert (~ occurs marker ((10 :: t') ++ [c])) as Hm' by (rewrite <- Ep; now apply indented_no_marker).
    pose proof (skip_text (10 :: t') c (text "    " ++ marker ++ text "()" ++ text (if semi then ";" else "") ++ t) (S n) [] Hc' Hm') as K. rewrite <- Es, <- Ep in K. rewrite K. cbn [app].
    destruct Hsemi as [->| ->].
    + cbn [split_from]. rewrite Es. rewrite marker_match. destruct (IH Hp' n Hn) as (tail & ->). exists tail. reflexivity.
    + inversion H; subst t. destruct semi.
      * cbn [split_from]. rewrite Es. rewrite marker_match. destruct n as [|[|[|[|n]]]]; try (cbn in Hn; lia). rewrite (split_end1 n : split_from (S (S (S (S n)))) [] _ = _). eexists. reflexivity.
      * cbn [split_from]. rewrite Es. rewrite marker_match_end. destruct n as [|[|[|n]]]; try (cbn in Hn; lia). rewrite (split_end2 n : split_from (S (S (S n))) [] _ = _). eexists. reflexivity.
Qed.
Lemma rendered_split bs out : rendered bs out -> Forall proper bs -> exists tail, split out = text "fn main() {" :: map piece bs ++ [tail].
Proof.
  intros (t & H & ->) Hp. unfold split.
  change (newline ++ text "    " ++ marker ++ text "();" ++ t) with (10 :: text "    " ++ marker ++ text "()" ++ text ";" ++ t).
  change (text "fn main() {") with (text "fn main() " ++ [123]).
  assert (~ occurs marker (text "fn main() " ++ [123])) as Hm.
  { intros (a & c & E). apply (f_equal (@length Z)) in E. rewrite !app_length in E. vm_compute (length marker) in E. cbn in E. lia. }
  assert (~ is_space 123 = true) as Hs by (vm_compute; discriminate).
  set (sep := 10 :: text "    " ++ marker ++ text "()" ++ text ";" ++ t).
  replace (S (length ((text "fn main() " ++ [123]) ++ sep))) with (length (text "fn main() " ++ [123%Z]) + S (length sep))%nat by (rewrite (app_length _ sep); lia).
  unfold sep at 2. rewrite (skip_text _ 123 _ (S (length sep)) [] Hs Hm). cbn [app split_from]. rewrite marker_match.
  destruct (body_split _ _ H Hp (length sep)) as (tail & ->); [unfold sep; cbn [length]; rewrite !app_length; lia|]. exists tail. reflexivity.
Qed.

(** Dedenting *)
Lemma replace_all_line : forall l f t, ~ In 10 l -> replace_all_from (length l + f) (l ++ t) = l ++ replace_all_from f t.
Proof.
  induction l as [|c l IH]; intros f t H; [reflexivity|]. cbn [length Nat.add app replace_all_from].
  destruct (strip indent (c :: l ++ t)) as [r|] eqn:E; [exfalso; apply strip_spec in E; injection E as -> _; apply H; now left|].
  rewrite IH by (intros K; apply H; now right). reflexivity.
Qed.
Lemma replace_all_lines : forall r f, Forall (fun l => ~ In 10 l) r -> (length (concat (map (fun x => 10%Z :: x) (indented r))) <= f)%nat ->
  replace_all_from f (concat (map (fun x => 10 :: x) (indented r))) = concat (map (fun x => 10 :: x) r).
Proof.
  induction r as [|l r IH]; intros f H Hf; [destruct f; reflexivity|]. inversion H; subst. cbn [indented map concat] in *. destruct l as [|c l].
  - cbn [app length] in *. destruct f as [|f]; [lia|]. cbn [replace_all_from].
    destruct (strip indent _) as [x|] eqn:E.
    + exfalso. apply strip_spec in E. destruct r as [|l' r]; cbn [indented map concat] in E; [discriminate E|]. injection E as E. discriminate E.
    + fold (indented r) in *. rewrite IH; [reflexivity|assumption|lia].
  - fold (indented r) in *. change (text "    " ++ c :: l) with (32 :: 32 :: 32 :: 32 :: c :: l) in *. cbn [app length] in Hf. rewrite !app_length in Hf.
    destruct f as [|f]; [lia|]. cbn [app replace_all_from].
    change (10 :: 32 :: 32 :: 32 :: 32 :: c :: l ++ concat (map (fun x => 10 :: x) (indented r))) with (indent ++ (c :: l) ++ concat (map (fun x => 10 :: x) (indented r))).
    rewrite strip_app. replace f with (length (c :: l) + (f - length (c :: l)))%nat by (cbn [length]; lia).
    rewrite replace_all_line by assumption. rewrite IH; [reflexivity|assumption|cbn [length]; lia].
Qed.
Lemma replace_first_indent t : replace_first (indent ++ t) = t.
Proof. change (indent ++ t) with (10 :: text "    " ++ t). cbn [replace_first]. change (10 :: text "    " ++ t) with (indent ++ t). now rewrite strip_app. Qed.
Lemma dedent_piece b : proper b -> dedent (piece b) = block_text b.
Proof.
  intros (Hl & (l & r & -> & Hn) & _). inversion Hl; subst. unfold dedent, piece. cbn [indented map]. destruct l as [|c l]; [now contradiction Hn|]. rewrite !block_text_cons. fold (indented r).
  assert (replace_first (10 :: (text "    " ++ c :: l) ++ concat (map (fun x => 10 :: x) (indented r))) = (c :: l) ++ concat (map (fun x => 10 :: x) (indented r))) as ->.
  { change (10 :: (text "    " ++ c :: l) ++ concat (map (fun x => 10 :: x) (indented r))) with (indent ++ (c :: l) ++ concat (map (fun x => 10 :: x) (indented r))). apply replace_first_indent. }
  unfold replace_all. rewrite app_length, replace_all_line by assumption. now rewrite replace_all_lines.
Qed.
