(** Property theorems: the rules do not depend on where a symbol is drawn (C124). *)
From Coq Require Import String Lia.
From Verif Require Import Base Str F64 SymData SymOps CheckFix CheckSpec SymCheck SchData RedrawSpec RedrawFacts.
Import ListNotations.
Open Scope string_scope. Open Scope list_scope.

(** ** C124 *)
(** Symbols that differ in where and how their parts are drawn get the same findings, except
    for the text of the part; pins have to be on the grid alike. *)
Theorem C124_redrawn (s t : symbol) : redrawn s t -> map forget (symbol_check t) = map forget (symbol_check s).
Proof. exact (check_redrawn s t). Qed.
Print Assumptions C124_redrawn.
(** If only pins are elsewhere, the findings are the same. *)
Theorem C124_repinned (s t : symbol) : repinned s t -> symbol_check t = symbol_check s.
Proof. exact (check_repinned s t). Qed.
Print Assumptions C124_repinned.
(** Shifting all pins by multiples of the grid, and mirroring them, keeps the findings. *)
Theorem C124_shift (s : symbol) (a b : Z) : on_grid 10 a -> on_grid 10 b -> symbol_check (place_pins (fun '(x, y) => (x + a, y + b)%Z) s) = symbol_check s.
Proof. exact (check_shift s a b). Qed.
Print Assumptions C124_shift.
Theorem C124_mirror (s : symbol) (a : Z) : on_grid 10 a -> symbol_check (place_pins (fun '(x, y) => (a - x, y)%Z) s) = symbol_check s
  /\ symbol_check (place_pins (fun '(x, y) => (x, a - y)%Z) s) = symbol_check s.
Proof. exact (check_mirror s a). Qed.
Print Assumptions C124_mirror.
(** For a pin the grid is exactly what matters of its place. *)
Theorem C124_pin (p q : pin) : like_pin p q -> (pin_check q = pin_check p <-> same_grid 10 (pn_x p) (pn_x q) /\ same_grid 10 (pn_y p) (pn_y q)).
Proof. exact (fun L => iff_trans (pin_exact p q L) (conj (fun H => proj2 H) (fun H => conj L H))). Qed.
Print Assumptions C124_pin.
(** Shifting by something else does change the findings, and so does turning, which swaps
    the findings about x and y. *)
Definition c124_pin (x y : Z) : draw := DPin (mk_pin (lit "NC") (lit "7") x y 150 PRight 50 40 1 1 PTInput true PSLine).
Definition c124_field (i d : Z) (x : f64) : sfield := mk_sfield i (lit "U") x fzero d Horizontal false SJCenter SJCenter false false [].
Definition c124_symbol : symbol := mk_symbol (lit "LM 358") (lit "U") fzero true true 1 false false [c124_field 0 60 fzero] [] [c124_pin 13 20; DRect (mk_rect 0 0 50 50 1 1 6 FillBg); DOther (lit "T")].
Definition c124_other : symbol := mk_symbol (lit "LM 358") (lit "U") (f64_of_Z 1) false true 2 true false [c124_field 0 60 (f64_of_Z 1)] [lit "OPA"] [c124_pin 3 (-170); DRect (mk_rect 7 8 9 10 2 1 6 FillBg); DOther (lit "A")].
Theorem C124_shift_refuted : exists (s : symbol) (a : Z), on_grid 5 a /\ symbol_check (place_pins (fun '(x, y) => (x + a, y)%Z) s) <> symbol_check s.
Proof.
  exists (mk_symbol (lit "R") (lit "R") fzero true true 1 false false [] [] [c124_pin 0 0]), 5%Z. split; [exists 1%Z; reflexivity|].
  intros H. apply (f_equal (fun l => length (all_findings l))) in H. vm_compute in H. discriminate H.
Qed.
Print Assumptions C124_shift_refuted.
Theorem C124_turn_refuted : exists s : symbol, symbol_check (place_pins (fun '(x, y) => (y, - x)%Z) s) <> symbol_check s.
Proof.
  exists (mk_symbol (lit "R") (lit "R") fzero true true 1 false false [] [] [c124_pin 5 0]).
  intros H. apply (f_equal (fun l => map it_message (all_findings l))) in H. vm_compute in H. discriminate H.
Qed.
Print Assumptions C124_turn_refuted.

Lemma c124_grid g a b k : (a - b = g * k)%Z -> same_grid g a b.
Proof. intros H. replace b with (a + g * (- k))%Z by lia. apply shift_grid. exists (- k)%Z. reflexivity. Qed.
(** A symbol with findings of every sort, redrawn; the texts do differ *)
Example C124_ex : redrawn c124_symbol c124_other /\ length (all_findings (symbol_check c124_symbol)) = 7%nat
  /\ str_eqb (flat_map it_item (all_findings (symbol_check c124_symbol))) (flat_map it_item (all_findings (symbol_check c124_other))) = false.
Proof.
  split; [|split; vm_compute; reflexivity]. split; [reflexivity|]. split; [reflexivity|]. split.
  - constructor; [|constructor]. split; [reflexivity|]. split; reflexivity.
  - constructor; [|constructor; [|constructor; [|constructor]]]; cbn [same_draw]; [|split; reflexivity|exact I].
    split; [unfold like_pin; cbn; tauto|]. split; [apply (c124_grid 10 13 3 1); reflexivity|apply (c124_grid 10 20 (-170) 19); reflexivity].
Qed.
