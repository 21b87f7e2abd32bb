(** Line ends of schematic text, and the text round trip (lemmas for C09). *)
From Coq Require Import String Lia.
From Verif Require Import Base Str StrFacts Num NumFacts F64 F64Text F64Facts LibFns LibSpec LibFacts SchData SchPrint SchParse SchWf SchLine SchFacts.
Open Scope string_scope. Open Scope list_scope.

(** ** Line ends *)
Lemma word_ne s : word_str s = true -> s <> []. Proof. destruct s; discriminate. Qed.
Lemma ne_app (a b : str) : b <> [] -> a ++ b <> []. Proof. destruct a; [auto|discriminate]. Qed.

Lemma quoted_ne s : quoted s <> []. Proof. discriminate. Qed.
Lemma show_Z_ne z : show_Z z <> []. Proof. apply show_Z_nonnil. Qed.
Ltac ne := repeat apply ne_app; first [discriminate|apply show_Z_ne|apply word_ne, end_word_word; assumption].
Ltac ends := repeat match goal with
  | |- line_ok (show_Z _) = true => apply line_num
  | |- line_ok (f64_to_str _) = true => apply line_f
  | |- line_ok (pad_right _ _) = true => apply line_pad
  | |- line_ok (quoted _) = true => apply line_quoted
  | |- line_ok (_ ++ quoted _) = true => apply line_app; [|discriminate|]
  | H : no_nl ?x = true |- line_ok (?x ++ _) = true => apply line_app; [exact H|ne|]
  | |- line_ok (_ ++ _) = true => apply line_app'
  | |- no_nl (_ ++ _) = true => apply nl_app
  | |- no_nl (quoted _) = true => apply line_no_nl
  | |- no_nl (show_Z _) = true => apply line_no_nl
  | H : ?x = true |- ?x = true => exact H
  | H : quotable ?x = true |- no_nl ?x = true => apply (quotable_nl x H)
  | H : end_word ?x = true |- line_ok ?x = true => unfold end_word in H; apply andb_prop in H as [? ?]
  | |- forallb _ [] = true => reflexivity
  | |- forallb line_ok (_ :: _) = true => cbn [forallb]; apply andb_true_intro; split
  | |- forallb line_ok (_ ++ _) = true => rewrite forallb_app; apply andb_true_intro; split
  | |- _ && _ = true => apply andb_true_intro; split
  | |- true = true => reflexivity
  | |- line_ok (lit _) = true => reflexivity
  | |- line_ok bl = true => reflexivity
  | |- line_ok tab = true => reflexivity
  | |- no_nl (lit _) = true => reflexivity
  | |- no_nl bl = true => reflexivity
  end.
Lemma ends_description d : descr_ok d = true -> forallb line_ok (print_description d) = true.
Proof.
  intros H. unfold descr_ok in H. cbn [forallb] in H. bsplit. unfold print_description.
  ends.
Qed.
Lemma ends_field f : cfield_ok f = true -> line_ok (print_field f) = true.
Proof.
  intros H. unfold cfield_ok in H. bsplit. unfold print_field. ends.
  all: repeat match goal with |- context [if ?b then _ else _] => destruct b end; ends.
  all: try (destruct (cf_orient f); reflexivity); try (destruct (cf_hjust f); reflexivity); try (destruct (cf_vjust f); reflexivity).
  all: try reflexivity.
Qed.
Lemma ends_component c : component_ok c = true -> forallb line_ok (print_component c) = true.
Proof.
  intros H. unfold component_ok in H. bsplit. unfold print_component. ends.
  - rewrite forallb_forall in *. intros x Hx.
    match goal with H : forall x, In x (co_ar c) -> _ |- _ => specialize (H x Hx) end. bsplit. assumption.
  - rewrite forallb_forall in *. intros x Hx. apply in_map_iff in Hx as (f & <- & Hf). apply ends_field. auto.
Qed.
Lemma ends_labels l i : forallb label_ok l = true -> forallb line_ok (print_labels i l) = true.
Proof.
  revert i. induction l as [|x l IH]; intros i H; [reflexivity|]. cbn [print_labels forallb] in *.
  apply andb_prop in H as [H1 H2]. rewrite IH by assumption. rewrite andb_true_r.
  unfold label_ok in H1. bsplit. unfold print_label. ends; [destruct (sl_form x)|destruct (sl_side x)]; reflexivity.
Qed.
Lemma ends_sheet s : sheet_ok s = true -> forallb line_ok (print_sheet s) = true.
Proof.
  intros H. unfold sheet_ok in H. bsplit. unfold print_sheet. ends. now apply ends_labels.
Qed.
Lemma ws_word_line s : ws_word s = true -> line_ok s = true.
Proof.
  unfold ws_word. intros H. apply andb_prop in H as [_ H].
  apply (line_of_chars _ (fun c => negb (is_ws c))); [now apply forallb_Forall|].
  intros c Hc; split; intros ->; discriminate.
Qed.
Lemma ends_element e : selement_ok e = true -> forallb line_ok (print_selement e) = true.
Proof.
  intros H. destruct e as [c|w|c|c|t|s]; cbn [selement_ok print_selement] in *.
  - now apply ends_component.
  - unfold print_wire. ends. destruct (wi_t w); reflexivity.
  - unfold print_connection. ends.
  - unfold print_no_connect. ends.
  - unfold stext_ok in H. bsplit. unfold print_text. ends.
    + destruct (te_t t); reflexivity.
    + destruct (te_shape t); ends; try reflexivity. apply ws_word_line. destruct (te_t t); (discriminate || assumption).
    + destruct (te_italic t); reflexivity.
  - unfold other_ok in H. bsplit. cbn [forallb]. rewrite andb_true_r. assumption.
Qed.
Lemma ends_sch s : sch_ok s = true -> forallb line_ok (sch_lines s) = true.
Proof.
  intros H. unfold sch_ok in H. bsplit. unfold sch_lines. ends.
  - rewrite forallb_forall in *. intros x Hx. apply in_map_iff in Hx as (v & <- & Hv). ends. auto.
  - now apply ends_description.
  - rewrite forallb_forall in *. intros x Hx. apply in_flat_map in Hx as (e & He & Hx).
    assert (E : forallb line_ok (print_selement e) = true) by (apply ends_element; auto). rewrite forallb_forall in E. auto.
  - rewrite forallb_forall in *. intros x Hx. apply in_flat_map in Hx as (e & He & Hx).
    assert (E : forallb line_ok (print_sheet e) = true) by (apply ends_sheet; auto). rewrite forallb_forall in E. auto.
Qed.
Lemma unlines_concat l : unlines l = concat (map ln l).
Proof. unfold unlines. now rewrite flat_map_concat_map. Qed.
Lemma rt_schematic s : sch_ok s = true -> parse_schematic (sc_filename s) (print_schematic s) = Ok s.
Proof.
  intros H. unfold parse_schematic, print_schematic. rewrite unlines_concat, lines_concat by now apply ends_sch.
  now apply rt_lines.
Qed.
