(** Reading elements written with only some of their parts. *)
From Coq Require Import String.
From Verif Require Import Base Str Num F64 Sexp FpData FpLayer FpSer FpDe FpNew FpWf LyData LyDe SchData SchParse
  SexpFacts FpFacts BareSpec.
Open Scope string_scope. Open Scope list_scope.

Lemma kv_layer l : layer_ok l = true -> de_layer (kv "layer" (ser_layer l)) = Ok l.
Proof. intros H. exact (rt_layer l H). Qed.

Lemma text_parts n v a l (h : bool) e :
  opt_ok at_ok a = true -> opt_ok layer_ok l = true -> opt_ok effects_ok e = true ->
  de_text (node "fp_text" ([SStr n; SStr v] ++ part ser_at a ++ part (fun l => kv "layer" (ser_layer l)) l
    ++ part a_lit (if h then Some "hide" else None) ++ part ser_effects e))
  = Ok (mk_text n v (given nowhere a) (given front_copper l) (given plain_letters e) h).
Proof.
  unfold opt_ok, part, de_text. intros A L E.
  pose proof kv_layer as K.
  destruct a as [a|]; destruct l as [l|]; destruct h; destruct e as [e|]; start; do 6 nxt; reflexivity.
Qed.

Lemma poly_parts p l w : opt_ok layer_ok l = true ->
  de_poly (node "fp_poly" (part ser_pts p ++ part (fun l => kv "layer" (ser_layer l)) l ++ part (fun w => kv "width" (a_f w)) w))
  = Ok (mk_poly (given [] p) (given fzero w) (given front_copper l)).
Proof.
  unfold opt_ok, part, de_poly. intros L. pose proof kv_layer as K.
  destruct p as [p|]; destruct l as [l|]; destruct w as [w|]; start; do 3 nxt; reflexivity.
Qed.

Lemma keep_or t p : xy_t p = t -> keep_xy t (Some p) = p.
Proof. intros <-. destruct p as [x y []]; reflexivity. Qed.

Lemma line_parts a b l w : xy_t a = XStart -> xy_t b = XEnd -> opt_ok layer_ok l = true ->
  de_line (node "fp_line" ([ser_xy a; ser_xy b] ++ part (fun l => kv "layer" (ser_layer l)) l ++ part (fun w => kv "width" (a_f w)) w))
  = Ok (mk_line a b (given front_copper l) (given fzero w)).
Proof.
  unfold opt_ok, part, de_line. intros A B L. pose proof kv_layer as K.
  destruct l as [l|]; destruct w as [w|]; start; do 4 nxt; rewrite (keep_or _ _ A), (keep_or _ _ B); reflexivity.
Qed.
Lemma circle_parts a b l w : xy_t a = XCenter -> xy_t b = XEnd -> opt_ok layer_ok l = true ->
  de_circle (node "fp_circle" ([ser_xy a; ser_xy b] ++ part (fun l => kv "layer" (ser_layer l)) l ++ part (fun w => kv "width" (a_f w)) w))
  = Ok (mk_circle a b (given front_copper l) (given fzero w)).
Proof.
  unfold opt_ok, part, de_circle. intros A B L. pose proof kv_layer as K.
  destruct l as [l|]; destruct w as [w|]; start; do 4 nxt; rewrite (keep_or _ _ A), (keep_or _ _ B); reflexivity.
Qed.
Lemma arc_parts a b g l w : xy_t a = XStart -> xy_t b = XEnd -> opt_ok layer_ok l = true ->
  de_arc (node "fp_arc" ([ser_xy a; ser_xy b] ++ part (fun g => kv "angle" (a_f g)) g
    ++ part (fun l => kv "layer" (ser_layer l)) l ++ part (fun w => kv "width" (a_f w)) w))
  = Ok (mk_arc a b (given fzero g) (given front_copper l) (given fzero w)).
Proof.
  unfold opt_ok, part, de_arc. intros A B L. pose proof kv_layer as K.
  destruct g as [g|]; destruct l as [l|]; destruct w as [w|]; start; do 5 nxt; rewrite (keep_or _ _ A), (keep_or _ _ B); reflexivity.
Qed.

(** A point of the wrong kind where the first is expected is lost, and so is the end of a
    line written without a start. *)
Lemma line_lost p : xy_t p = XEnd -> de_line (node "fp_line" [ser_xy p]) = Ok line_default.
Proof. destruct p as [x y t]; cbn [xy_t]. intros ->. unfold de_line. start. do 4 nxt. reflexivity. Qed.
Lemma circle_lost p : xy_t p = XEnd -> de_circle (node "fp_circle" [ser_xy p]) = Ok circle_default.
Proof. destruct p as [x y t]; cbn [xy_t]. intros ->. unfold de_circle. start. do 4 nxt. reflexivity. Qed.
Lemma arc_lost p : xy_t p = XEnd -> de_arc (node "fp_arc" [ser_xy p]) = Ok arc_default.
Proof. destruct p as [x y t]; cbn [xy_t]. intros ->. unfold de_arc. start. do 5 nxt. reflexivity. Qed.

Lemma pad_parts_written n t sh a z d l :
  opt_ok at_ok a = true -> opt_ok (fun z => xy_type_eqb (xy_t z) XSize) z = true ->
  opt_ok drill_ok d = true -> opt_ok (forallb layer_ok) l = true ->
  de_pad (node "pad" ([SStr n; a_lit (show_pad_type t); a_lit (show_pad_shape sh)]
    ++ part ser_at a ++ part ser_xy z ++ part ser_drill d ++ part ser_layers l))
  = Ok (mk_pad n t sh (given (origin XSize) z) None (given nowhere a) (given [] l) None None d None None None None).
Proof.
  unfold opt_ok, part, de_pad. intros A Z D L.
  destruct z as [[x y tz]|]; [apply xy_type_eqb_eq in Z; cbn [xy_t] in Z; subst tz|];
  destruct a as [a|]; destruct d as [d|]; destruct l as [l|]; start; do 9 nxt;
  (erewrite pbind_ok; [|apply p_vec_ok; reflexivity]); reflexivity.
Qed.

Lemma empty_module n : de_module (node "module" [SStr n]) = Ok (module_new n).
Proof. reflexivity. Qed.
Lemma empty_board : de_layout (node "kicad_pcb" []) = Ok layout_default.
Proof. reflexivity. Qed.

Lemma layers_grow ls l : forallb layer_ok ls = true -> layer_ok l = true ->
  de_layers (ser_layers (layers_append l ls)) = Ok (ls ++ [l])
  /\ ser_layers (layers_append l ls) = SList (SStr (lit "layers") :: map ser_layer ls ++ [ser_layer l]).
Proof.
  intros A B. unfold layers_append. split.
  - apply rt_layers. rewrite forallb_app, A. cbn [forallb]. now rewrite B.
  - unfold ser_layers, node, a_lit. now rewrite map_app.
Qed.
