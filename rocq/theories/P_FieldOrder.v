(** Property theorems: the order of the entries within an element (C113). *)
From Coq Require Import String Permutation.
From Verif Require Import Base Str StrFacts Num F64 F64Text Sexp FpData FpDe LyData LyDe FpLibTable DocText MeanSpec JoinSpec FieldOrderSpec FieldOrderFacts.
Open Scope string_scope. Open Scope list_scope.

(** ** C113 *)
(** The entries of these elements have a fixed order; none may stand twice. *)
Theorem C113_footprint : forall k ns l e, In (k, ns) footprint_orders -> de_element (SList (SStr (lit k) :: l)) = Ok e -> in_order ns l.
Proof. exact footprint_order. Qed.
Print Assumptions C113_footprint.
Theorem C113_board : forall k ns l b, In (k, ns) board_orders -> de_layout (board_tree [SList (SStr (lit k) :: l)]) = Ok b -> in_order ns l.
Proof. exact board_order. Qed.
Print Assumptions C113_board.
Theorem C113_parts : forall l,
  (forall x, de_effects (SList (SStr (lit "effects") :: l)) = Ok x -> in_order ["font"; "justify"] l) /\
  (forall x, de_font (SList (SStr (lit "font") :: l)) = Ok x -> in_order ["point"; "thickness"] l) /\
  (forall x, de_drill (SList (SStr (lit "drill") :: l)) = Ok x -> in_order ["offset"] l) /\
  (forall x, de_keepout (SList (SStr (lit "keepout") :: l)) = Ok x -> in_order ["tracks"; "vias"; "copperpour"] l) /\
  (forall x, de_fill (SList (SStr (lit "fill") :: l)) = Ok x -> in_order ["mode"; "arc_segments"; "thermal_gap"; "thermal_bridge_width"; "smoothing"; "radius"] l).
Proof. exact parts_order. Qed.
Print Assumptions C113_parts.
(** These begin in a fixed order. *)
Theorem C113_zone : forall l z, de_zone (SList (SStr (lit "zone") :: l)) = Ok z -> exists a f r, l = a ++ f :: r /\ in_order zone_order a /\ called "fill" f = true.
Proof. exact zone_in_order. Qed.
Print Assumptions C113_zone.
Theorem C113_row : forall l x, de_flib (SList (SStr (lit "lib") :: l)) = Ok x -> exists a r, l = a ++ r /\ in_order lib_order a /\ length a = 5%nat.
Proof. exact lib_in_order. Qed.
Print Assumptions C113_row.
Theorem C113_pad : forall l p, de_pad (SList (SStr (lit "pad") :: l)) = Ok p -> exists a r, l = a ++ r /\ in_order pad_order a /\ Forall (named_in pad_parts) r.
Proof. exact pad_in_order. Qed.
Print Assumptions C113_pad.
(** So of all orders of the same entries one is read; only points can change places. *)
Theorem C113_footprint_once : forall k ns l l' e e', In (k, ns) footprint_orders -> de_element (SList (SStr (lit k) :: l)) = Ok e -> de_element (SList (SStr (lit k) :: l')) = Ok e' ->
  Permutation l l' -> filter other l = filter other l'.
Proof. exact footprint_once. Qed.
Print Assumptions C113_footprint_once.
Theorem C113_board_once : forall k ns l l' b b', In (k, ns) board_orders -> de_layout (board_tree [SList (SStr (lit k) :: l)]) = Ok b -> de_layout (board_tree [SList (SStr (lit k) :: l')]) = Ok b' ->
  Permutation l l' -> filter other l = filter other l'.
Proof. exact board_once. Qed.
Print Assumptions C113_board_once.
(** The parts of a pad and the values of a net class can be in any order. *)
Theorem C113_pad_parts : forall x ps ps' p, de_pad (SList (SStr (lit "pad") :: x ++ ps)) = Ok p -> Forall (named_in pad_parts) ps -> at_most_once pad_parts ps -> Permutation ps ps' ->
  de_pad (SList (SStr (lit "pad") :: x ++ ps')) = Ok p.
Proof. exact pad_parts_moved. Qed.
Print Assumptions C113_pad_parts.
Theorem C113_net_class : forall n d ps ps' c, de_net_class (SList (SStr (lit "net_class") :: SStr n :: SStr d :: ps)) = Ok c -> at_most_once class_parts ps -> Permutation ps ps' ->
  exists c', de_net_class (SList (SStr (lit "net_class") :: SStr n :: SStr d :: ps')) = Ok c' /\ same_class c c'.
Proof. exact class_moved. Qed.
Print Assumptions C113_net_class.

(** The place of the points is not free: a line of a footprint that gives its end first is
    read without complaint, and both of its ends are lost. *)
Definition pt (k x y : string) : sexp := SList [SStr (lit k); SStr (lit x); SStr (lit y)].
Definition lay : sexp := SList [SStr (lit "layer"); SStr (lit "F.SilkS")].
Definition wid : sexp := SList [SStr (lit "width"); SStr (lit "0.15")].
Definition at_zero (p : xy) : bool := feqb (xy_x p) fzero && feqb (xy_y p) fzero.
Definition lost (l : fp_line) : bool := at_zero (li_start l) && at_zero (li_end l).
Definition line_of (r : res element) : option fp_line := match r with Ok (EFpLine l) => Some l | _ => None end.
Lemma line_lost : match line_of (de_element (SList (SStr (lit "fp_line") :: [pt "start" "1" "2"; pt "end" "3" "4"; lay; wid]))), line_of (de_element (SList (SStr (lit "fp_line") :: [pt "end" "3" "4"; pt "start" "1" "2"; lay; wid]))) with
  | Some l, Some l' => negb (at_zero (li_start l)) && negb (at_zero (li_end l)) && lost l' | _, _ => false end = true.
Proof. vm_compute. reflexivity. Qed.
Lemma line_witness : exists l l' e e', Permutation l l' /\ line_of (de_element (SList (SStr (lit "fp_line") :: l))) = Some e /\ line_of (de_element (SList (SStr (lit "fp_line") :: l'))) = Some e' /\
  at_zero (li_start e) = false /\ at_zero (li_end e) = false /\ lost e' = true.
Proof.
  exists [pt "start" "1" "2"; pt "end" "3" "4"; lay; wid], [pt "end" "3" "4"; pt "start" "1" "2"; lay; wid]. pose proof line_lost as H.
  destruct (line_of _) as [e|] in H |- *; [|discriminate H]. destruct (line_of _) as [e'|] in H |- *; [|discriminate H]. exists e, e'.
  apply Bool.andb_true_iff in H as [H L]. apply Bool.andb_true_iff in H as [A B]. apply Bool.negb_true_iff in A, B.
  apply conj; [apply perm_swap|]. apply conj; [reflexivity|]. apply conj; [reflexivity|]. apply conj; [exact A|]. apply conj; [exact B|exact L].
Qed.
Theorem C113_points_refuted : exists l l' e e', Permutation l l' /\ line_of (de_element (SList (SStr (lit "fp_line") :: l))) = Some e /\ line_of (de_element (SList (SStr (lit "fp_line") :: l'))) = Some e' /\
  at_zero (li_start e) = false /\ at_zero (li_end e) = false /\ lost e' = true.
Proof. exact line_witness. Qed.
Print Assumptions C113_points_refuted.

(** The width in front of the layer is refused, a layer given twice too; the parts of a pad
    are read in two orders, a via in one. *)
Definition reads {A} (r : res A) : bool := match r with Ok _ => true | _ => false end.
Definition w (s : string) : sexp := SStr (lit s).
Definition ex_pad (ps : list sexp) : sexp := SList ([w "pad"; w "1"; w "smd"; w "rect"; SList [w "at"; w "0"; w "0"]; pt "size" "1" "1"; SList [w "layers"; w "F.Cu"]] ++ ps).
Definition ex_net := SList [w "net"; w "1"; w "GND"].
Definition ex_gap := SList [w "clearance"; w "0.2"].
Definition ex_class (ps : list sexp) : sexp := SList ([w "net_class"; w "Default"; w "all"] ++ ps).
Definition ex_width := SList [w "trace_width"; w "0.3"].
Definition ex_add (n : string) := SList [w "add_net"; w n].
Example C113_ex :
  reads (de_element (SList [w "fp_line"; pt "start" "1" "2"; pt "end" "3" "4"; lay; wid])) = true /\
  reads (de_element (SList [w "fp_line"; pt "start" "1" "2"; pt "end" "3" "4"; wid; lay])) = false /\
  reads (de_element (SList [w "fp_line"; pt "start" "1" "2"; pt "end" "3" "4"; lay; lay])) = false /\
  reads (de_pad (ex_pad [ex_net; ex_gap])) = true /\ reads (de_pad (ex_pad [ex_gap; ex_net])) = true /\
  match de_net_class (ex_class [ex_gap; ex_add "A"; ex_width; ex_add "B"]), de_net_class (ex_class [ex_add "B"; ex_width; ex_add "A"; ex_gap]) with
  | Ok c, Ok c' => feqb (nc_clearance c) (nc_clearance c') && feqb (nc_trace_width c) (nc_trace_width c') && Nat.eqb (length (LyData.nc_nets c')) 2
  | _, _ => false end = true /\
  reads (de_layout (board_tree [SList [w "via"; SList [w "at"; w "1"; w "2"]; SList [w "size"; w "0.6"]; SList [w "layers"; w "F.Cu"; w "B.Cu"]; SList [w "net"; w "1"]]])) = true /\
  reads (de_layout (board_tree [SList [w "via"; SList [w "size"; w "0.6"]; SList [w "at"; w "1"; w "2"]; SList [w "layers"; w "F.Cu"; w "B.Cu"]; SList [w "net"; w "1"]]])) = false.
Proof. repeat (apply conj; [vm_compute; reflexivity|]). vm_compute. reflexivity. Qed.
Example C113_ex_once : Forall (named_in pad_parts) [ex_net; ex_gap] /\ at_most_once pad_parts [ex_net; ex_gap] /\ at_most_once class_parts [ex_gap; ex_add "A"; ex_width; ex_add "B"].
Proof.
  apply conj; [|apply conj].
  - repeat constructor; [exists "net"|exists "clearance"]; (split; [unfold pad_parts; cbn [In]; tauto|reflexivity]).
  - intros k I. unfold pad_parts in I. cbn [In] in I. repeat destruct I as [<-|I]; try contradiction; apply PeanoNat.Nat.leb_le; vm_compute; reflexivity.
  - intros k I. unfold class_parts in I. cbn [In] in I. repeat destruct I as [<-|I]; try contradiction; apply PeanoNat.Nat.leb_le; vm_compute; reflexivity.
Qed.
