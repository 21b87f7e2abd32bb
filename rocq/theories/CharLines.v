(** The characters of saved schematics and symbol libraries (C108). *)
From Coq Require Import List String NArith Lia.
From Verif Require Import Base Str StrFacts Num NumFacts F64 F64Text F64Facts SchData SchPrint SymData SymPrint SexpFacts CharSpec CharLineSpec.
Import ListNotations.
Open Scope string_scope. Open Scope list_scope.

(** A text whose characters are the program's own or come from the texts [l] *)
Definition drawn (l : list str) (s : str) : Prop := Forall (fun c => line_own c \/ of_texts l c) s.
Lemma d_own l s : forallb line_ownb s = true -> drawn l s.
Proof. intros H. apply Forall_forall. intros c I. rewrite forallb_forall in H. left. exact (H c I). Qed.
Lemma d_str l s : In s l -> drawn l s.
Proof. intros I. apply Forall_forall. intros c C. right. now exists s. Qed.
Lemma d_app l s t : drawn l s -> drawn l t -> drawn l (s ++ t).
Proof. intros A B. apply Forall_app. auto. Qed.
Lemma d_cons l c t : line_ownb c = true -> drawn l t -> drawn l (c :: t).
Proof. intros A B. constructor; [now left|exact B]. Qed.
Lemma d_incl l m s : incl l m -> drawn l s -> drawn m s.
Proof. intros I A. refine (Forall_impl _ _ A). intros c [O|(x & X & C)]; [now left|right; exists x; auto]. Qed.
Ltac chars := let y := fresh in let H := fresh in intros y H; unfold float_char, is_dec_digit in H;
  rewrite ?Bool.orb_true_iff, ?Bool.andb_true_iff, ?N.leb_le, ?N.eqb_eq in H; unfold line_ownb; cbn [existsb]; rewrite ?Bool.orb_true_iff, ?Bool.andb_true_iff, ?N.leb_le, ?N.eqb_eq; lia.
Lemma d_chars l s (q : N -> bool) : Forall (fun x => q x = true) s -> (forall x, q x = true -> line_ownb x = true) -> drawn l s.
Proof. intros F P. apply d_own, forallb_forall. rewrite Forall_forall in F. auto. Qed.
Lemma d_f l x : drawn l (f64_to_str x). Proof. apply (d_chars _ _ float_char); [apply f64_to_str_chars|chars]. Qed.
Lemma d_z l x : drawn l (show_Z x). Proof. apply (d_chars _ _ _ (show_Z_chars x)). chars. Qed.
Lemma d_pad l n s : drawn l s -> drawn l (pad_right n s).
Proof. intros A. apply d_app; [exact A|]. apply d_own, forallb_forall. intros c I. apply repeat_spec in I. now subst c. Qed.
Ltac here := apply d_str; cbn [In]; tauto.
Ltac leaf := first [apply d_z | apply d_f | apply d_own; reflexivity | here | apply d_pad; leaf].
Ltac dgo := repeat first [apply d_app | leaf | apply d_cons; [reflexivity|]].
Definition lines_drawn (l : list str) (ls : list str) : Prop := Forall (drawn l) ls.
Lemma unlines_drawn l ls : lines_drawn l ls -> drawn l (unlines ls).
Proof. induction 1 as [|s ls D _ IH]; [constructor|]. cbn [unlines flat_map]. apply d_app; [|exact IH]. apply d_app; [exact D|apply d_own; reflexivity]. Qed.
Lemma ls_incl l m ls : incl l m -> lines_drawn l ls -> lines_drawn m ls.
Proof. intros I. apply Forall_impl. intros s. now apply d_incl. Qed.
Lemma ls_flat {A} (f : A -> list str) (g : A -> list str) xs : (forall x, In x xs -> lines_drawn (g x) (f x)) -> lines_drawn (flat_map g xs) (flat_map f xs).
Proof.
  intros H. apply Forall_flat_map. apply Forall_forall. intros x I. apply (ls_incl (g x)); [|now apply H]. intros s S. apply in_flat_map. now exists x.
Qed.

Lemma d_orient l o : drawn l (show_orientation o). Proof. destruct o; apply d_own; reflexivity. Qed.
Lemma d_just l o : drawn l (show_sjustify o). Proof. destruct o; apply d_own; reflexivity. Qed.
Lemma d_if l (b : bool) s t : drawn l s -> drawn l t -> drawn l (if b then s else t). Proof. destruct b; auto. Qed.
Lemma d_iflit l (b : bool) s t : drawn l (lit s) -> drawn l (lit t) -> drawn l (lit (if b then s else t)). Proof. destruct b; auto. Qed.
Ltac leaf ::= first [apply d_z | apply d_f | apply d_orient | apply d_just | apply d_iflit; apply d_own; reflexivity | apply d_own; reflexivity | here | apply d_pad; leaf].
Ltac dgo ::= repeat lazymatch goal with
  | |- drawn _ (lit (if _ then _ else _)) => apply d_iflit
  | |- drawn _ (if _ then _ else _) => apply d_if
  | |- drawn _ (pad_right _ _) => apply d_pad
  | |- drawn _ (_ ++ _) => apply d_app
  | |- drawn _ (show_Z _) => apply d_z
  | |- drawn _ (f64_to_str _) => apply d_f
  | |- drawn _ (show_orientation _) => apply d_orient
  | |- drawn _ (show_sjustify _) => apply d_just
  | |- drawn _ (_ :: _ :: _) => apply d_own; reflexivity
  | |- drawn _ [_] => apply d_own; reflexivity
  | |- drawn _ (_ :: _) => apply d_cons; [reflexivity|]
  | |- drawn _ _ => first [here | apply d_own; reflexivity]
  end.
Lemma descr_drawn d : lines_drawn (descr_strs d) (print_description d).
Proof. unfold print_description, descr_strs, quoted. repeat (apply Forall_cons; [dgo|]). apply Forall_nil. Qed.
Lemma field_drawn f : drawn (cfield_strs f) (print_field f).
Proof. unfold print_field, quoted, cfield_strs. dgo. Qed.
Lemma comp_drawn c : lines_drawn (selement_strs (SComponent c)) (print_component c).
Proof.
  unfold print_component, tab. cbn [selement_strs]. apply Forall_app. split; [repeat (apply Forall_cons; [dgo|]); apply Forall_nil|]. apply Forall_app. split.
  { apply Forall_forall. intros s I. apply d_str. do 3 right. apply in_or_app. now left. }
  apply Forall_app. split; [|repeat (apply Forall_cons; [dgo|]); apply Forall_nil].
  apply Forall_forall. intros s I. apply in_map_iff in I as (f & <- & I). apply (d_incl (cfield_strs f)); [|apply field_drawn].
  intros t T. do 3 right. apply in_or_app. right. apply in_flat_map. now exists f.
Qed.
Lemma labels_drawn ls : forall i, lines_drawn (map sl_name ls) (print_labels i ls).
Proof.
  induction ls as [|x ls IH]; intros i; [constructor|]. cbn [print_labels map]. apply Forall_cons.
  - unfold print_label, quoted. dgo; destruct (sl_form x), (sl_side x); apply d_own; reflexivity.
  - apply (ls_incl (map sl_name ls)); [intros s I; now right|apply IH].
Qed.
Lemma sheet_drawn s : lines_drawn (sheet_strs s) (print_sheet s).
Proof.
  unfold print_sheet, sheet_strs, quoted. apply Forall_app. split; [repeat (apply Forall_cons; [dgo|]); apply Forall_nil|]. apply Forall_app. split; [|repeat (apply Forall_cons; [dgo|]); apply Forall_nil].
  apply (ls_incl (map sl_name (sh_labels s))); [intros t I; do 3 right; exact I|apply labels_drawn].
Qed.
Lemma selement_drawn e : lines_drawn (selement_strs e) (print_selement e).
Proof.
  destruct e as [c|[t x1 y1 x2 y2]|[x y]|[x y]|[t x y o z h i k w]|s]; cbn [print_selement].
  - apply comp_drawn.
  - unfold print_wire, tab. cbn. repeat (apply Forall_cons; [dgo; destruct t; apply d_own; reflexivity|]). apply Forall_nil.
  - unfold print_connection. repeat (apply Forall_cons; [dgo|]). apply Forall_nil.
  - unfold print_no_connect. repeat (apply Forall_cons; [dgo|]). apply Forall_nil.
  - unfold print_text. cbn [selement_strs te_t te_x te_y te_orient te_size te_shape te_italic te_thickness te_text]. apply Forall_cons; [|apply Forall_cons; [apply d_str; now left|apply Forall_nil]].
    destruct h as [h|]; dgo; destruct t; apply d_own; reflexivity.
  - apply Forall_cons; [apply d_str; now left|apply Forall_nil].
Qed.
Theorem schematic_chars s c : In c (print_schematic s) -> line_own c \/ of_texts (sch_strs s) c.
Proof.
  intros I. assert (D : drawn (sch_strs s) (print_schematic s)); [|unfold drawn in D; rewrite Forall_forall in D; auto].
  apply unlines_drawn. unfold sch_lines, sch_strs. repeat (apply Forall_app; split).
  - apply Forall_cons; [apply d_own; reflexivity|apply Forall_nil].
  - apply Forall_forall. intros t T. apply in_map_iff in T as (v & <- & V). apply d_app; [apply d_own; reflexivity|]. apply d_str. right. apply in_or_app. now left.
  - apply Forall_cons; [apply d_str; now left|]. apply Forall_cons; [apply d_own; reflexivity|apply Forall_nil].
  - apply (ls_incl (descr_strs (sc_description s))); [|apply descr_drawn]. intros t T. right. apply in_or_app. right. apply in_or_app. now left.
  - apply (ls_incl (flat_map selement_strs (sc_elements s))); [|apply ls_flat; intros; apply selement_drawn]. intros t T. right. apply in_or_app. right. apply in_or_app. right. apply in_or_app. now left.
  - apply (ls_incl (flat_map sheet_strs (sc_sheets s))); [|apply ls_flat; intros; apply sheet_drawn]. intros t T. right. apply in_or_app. right. apply in_or_app. right. apply in_or_app. now right.
  - apply Forall_cons; [apply d_own; reflexivity|apply Forall_nil].
Qed.
Lemma sfield_drawn f : drawn [sf_value f; sf_name f] (print_sfield f).
Proof. unfold print_sfield, quoted. dgo. Qed.
Lemma draw_drawn d : drawn (draw_strs d) (print_draw d).
Proof.
  destruct d as [[nm nu x y n o z w u v t vi sh]|[x1 y1 x2 y2 u v t f]|s]; cbn [print_draw draw_strs]; [| |apply d_str; now left].
  - unfold print_pin. cbn [pn_name pn_number pn_x pn_y pn_len pn_orient pn_num_size pn_name_size pn_unit pn_convert pn_type pn_visible pn_shape]. dgo; try (destruct o; apply d_own; reflexivity); try (destruct t; apply d_own; reflexivity);
    destruct sh; dgo; apply d_own; reflexivity.
  - unfold print_rect. cbn [rc_x1 rc_y1 rc_x2 rc_y2 rc_unit rc_convert rc_thickness rc_fill]. dgo. destruct f; apply d_own; reflexivity.
Qed.
Lemma ok_inj {A} (a b : A) : Ok a = Ok b -> a = b.
Proof. intros H. now injection H. Qed.
Lemma symbol_drawn s ls : print_symbol s = Ok ls -> lines_drawn (symbol_strs s) ls.
Proof.
  unfold print_symbol. intros H. apply bind_inv in H as (f1 & F & H). apply ok_inj in H. subst ls. unfold symbol_strs.
  assert (FV : forall f, In f (sy_fields s) -> incl [sf_value f; sf_name f] (sy_name s :: sy_reference s :: sy_aliases s ++ flat_map (fun f => [sf_value f; sf_name f]) (sy_fields s) ++ flat_map draw_strs (sy_draw s))).
  { intros f I t T. do 2 right. apply in_or_app. right. apply in_or_app. left. apply in_flat_map. now exists f. }
  assert (F1 : In f1 (sy_fields s)) by (unfold idx in F; destruct (nth_error (sy_fields s) 1) eqn:E; [injection F as <-; exact (nth_error_In _ _ E)|discriminate F]).
  repeat (apply Forall_app; split).
  - apply Forall_cons; [apply d_app; [apply d_own; reflexivity|apply d_str; apply (FV f1 F1); now left]|]. apply Forall_cons; [apply d_own; reflexivity|]. apply Forall_cons; [dgo|apply Forall_nil].
  - apply Forall_forall. intros t T. apply in_map_iff in T as (f & <- & I). exact (d_incl _ _ _ (FV f I) (sfield_drawn f)).
  - destruct (is_empty (sy_aliases s)); [apply Forall_nil|]. apply Forall_cons; [|apply Forall_nil]. apply d_app; [apply d_own; reflexivity|].
    assert (G : forall al, incl al (sy_aliases s) -> drawn (sy_name s :: sy_reference s :: sy_aliases s ++ flat_map (fun f => [sf_value f; sf_name f]) (sy_fields s) ++ flat_map draw_strs (sy_draw s)) (flat_map (fun a => bl ++ a) al)).
    { induction al as [|a al IH]; intros I; [constructor|]. cbn [flat_map]. apply d_app; [|apply IH; intros x X; apply I; now right]. apply d_app; [apply d_own; reflexivity|]. apply d_str. do 2 right. apply in_or_app. left. apply I. now left. }
    apply G. intros x X. exact X.
  - apply Forall_cons; [apply d_own; reflexivity|apply Forall_nil].
  - apply Forall_forall. intros t T. apply in_map_iff in T as (d & <- & I). apply (d_incl (draw_strs d)); [|apply draw_drawn]. intros x X. do 2 right. apply in_or_app. right. apply in_or_app. right. apply in_flat_map. now exists d.
  - repeat (apply Forall_cons; [apply d_own; reflexivity|]). apply Forall_nil.
Qed.
Theorem library_chars l t c : print_symbol_lib l = Ok t -> In c t -> line_own c \/ of_texts (flat_map symbol_strs l) c.
Proof.
  intros H I. unfold print_symbol_lib in H. apply bind_inv in H as (ls & M & H). apply ok_inj in H. subst t.
  assert (D : lines_drawn (flat_map symbol_strs l) (concat ls)).
  { clear I. revert ls M. induction l as [|s l IH]; intros ls M; cbn [mapM] in M; [injection M as <-; constructor|].
    apply bind_inv in M as (x & X & M). apply bind_inv in M as (xs & XS & M). injection M as <-. cbn [concat flat_map]. apply Forall_app. split.
    - apply (ls_incl (symbol_strs s)); [intros y Y; apply in_or_app; now left|now apply symbol_drawn].
    - apply (ls_incl (flat_map symbol_strs l)); [intros y Y; apply in_or_app; now right|now apply IH]. }
  assert (E : drawn (flat_map symbol_strs l) (unlines ([lit "EESchema-LIBRARY Version 2.3"; lit "#encoding utf-8"; lit "#"] ++ concat ls ++ [lit "#End Library"]))).
  { apply unlines_drawn. apply Forall_app. split; [repeat (apply Forall_cons; [apply d_own; reflexivity|]); apply Forall_nil|]. apply Forall_app. split; [exact D|].
    apply Forall_cons; [apply d_own; reflexivity|apply Forall_nil]. }
  unfold drawn in E. rewrite Forall_forall in E. exact (E c I).
Qed.
Theorem line_own_list c : line_own c <-> In c (lit "ABCDEFGHIJKLMNOPQRSTUVWXYZabcdefghijklmnopqrstuvwxyz0123456789-.:$#~ " ++ [34; 9; 10]%N).
Proof.
  split.
  - intros H. unfold line_own, line_ownb in H.
    assert (B : (c < 128)%N).
    { cbn [existsb] in H. rewrite ?Bool.orb_true_iff, ?Bool.andb_true_iff, ?N.leb_le, ?N.eqb_eq in H. lia. }
    assert (ALL : forallb (fun k => implb (line_ownb (N.of_nat k)) (existsb (N.eqb (N.of_nat k)) (lit "ABCDEFGHIJKLMNOPQRSTUVWXYZabcdefghijklmnopqrstuvwxyz0123456789-.:$#~ " ++ [34; 9; 10]%N))) (seq 0 128) = true) by (vm_compute; reflexivity).
    rewrite forallb_forall in ALL. specialize (ALL (N.to_nat c)). rewrite N2Nat.id in ALL. assert (S : In (N.to_nat c) (seq 0 128)) by (apply in_seq; lia). specialize (ALL S).
    fold (line_ownb c) in H. rewrite H in ALL. cbn [implb] in ALL. apply existsb_exists in ALL as (x & X & E). apply N.eqb_eq in E. now rewrite E.
  - intros I. assert (ALL : forallb line_ownb (lit "ABCDEFGHIJKLMNOPQRSTUVWXYZabcdefghijklmnopqrstuvwxyz0123456789-.:$#~ " ++ [34; 9; 10]%N) = true) by (vm_compute; reflexivity).
    rewrite forallb_forall in ALL. exact (ALL c I).
Qed.
