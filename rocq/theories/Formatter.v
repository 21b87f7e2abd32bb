(** The indenting formatter (/repo/src/formatter.rs) and the text level of the
    crate symbolic_expressions (serializer call sequence and reader; that crate
    is a dependency outside /repo, see DESIGN.md, trusted base). *)
From Coq Require Import String.
From Verif Require Import Base Str Sexp.
Open Scope string_scope. Open Scope list_scope.

(** ** formatter.rs *)

(** formatter.rs:10-43 *)
Record indent := mk_indent { in_before : Z; in_close : bool; in_after : Z }.
(** The values the functions below build: [before], [close_on_new_line],
    [before_double], [newline_after_closing]. *)
Definition in_default := mk_indent 0 false 0.
Definition in_b := mk_indent 1 false 0.
Definition in_bc := mk_indent 1 true 0.
Definition in_bb := mk_indent 2 false 0.
Definition in_bbc := mk_indent 2 true 0.
Definition in_bbca := mk_indent 2 true 1.

(** formatter.rs:46-65; the top of [stack] is the head of the list. The constant
    field [ind] (two blanks) is folded into [fm_indent]. *)
Record fstate := mk_fs {
  fs_indent : Z; fs_stack : list (option (str * option indent)); fs_pts : Z;
  fs_seen_module : bool; fs_seen_segment : bool }.
Definition fs_new (n : Z) := mk_fs n [] 0 false false.

Definition seqb (s : str) (k : string) : bool := str_eqb s (lit k).
Definition mem (s : str) (l : list string) : bool := existsb (seqb s) l.

(** formatter.rs:67-85 *)
Definition fm_is (f : fstate) (what : string) : bool :=
  existsb (fun x => match x with Some (n, _) => seqb n what | None => false end) (fs_stack f).
Definition fm_parent (f : fstate) (what : string) : bool :=
  match fs_stack f with Some (n, _) :: _ => seqb n what | _ => false end.

(** formatter.rs:87-102: the text written *)
Definition fm_indent (f : fstate) (nls : Z) : str :=
  repeat 10%N (Z.to_nat nls) ++ flat_map (fun _ => [32; 32]%N) (repeat tt (Z.to_nat (fs_indent f))).
Definition fm_indent_plus (f : fstate) (nls : Z) : str :=
  fm_indent (mk_fs (fs_indent f + 1) (fs_stack f) (fs_pts f) (fs_seen_module f) (fs_seen_segment f)) nls.

(** formatter.rs:104-113 *)
Definition want_fp_lib_table (f : fstate) : option indent :=
  if negb (fm_is f "fp_lib_table") then None
  else Some (if fm_parent f "fp_lib_table" then in_b else in_default).

(** formatter.rs:115-168; the first matching case wins *)
Definition want_module (f : fstate) (ele : str) : option indent :=
  if fm_parent f "module" && mem ele ["at"; "descr"; "fp_line"; "fp_poly"; "pad"; "path"; "fp_circle"; "attr"]
  then Some in_b
  else if fm_parent f "module" && mem ele ["model"; "fp_text"; "gr_text"] then Some in_bc
  else if fm_parent f "dimension" && seqb ele "gr_text" then Some in_bc
  else if (fm_parent f "fp_text" || fm_parent f "gr_text") && seqb ele "effects" then Some in_b
  else if fm_parent f "pts" && seqb ele "xy" &&
    (((0 <? fs_pts f)%Z && Z.eqb (Z.rem (fs_pts f) (if fm_is f "fp_poly" then 4 else 5)) 0)
     || (Z.eqb (fs_pts f) 0 && (fm_is f "polygon" || fm_is f "filled_polygon"))) then Some in_b
  else if fm_parent f "model" && mem ele ["at"; "scale"; "rotate"] then Some in_b
  else if fm_parent f "pad" && seqb ele "net" then Some in_b
  else None.

(** formatter.rs:170-248 *)
Definition want_layout (f : fstate) (ele : str) : option indent :=
  if negb (fm_is f "kicad_pcb") then None
  else if fm_parent f "kicad_pcb" && seqb ele "page" then Some in_bb
  else if fm_parent f "kicad_pcb" && mem ele ["net"; "gr_circle"; "gr_line"; "gr_arc"; "segment"; "via"] then Some in_b
  else if fm_parent f "kicad_pcb" && mem ele ["layers"; "gr_text"; "dimension"; "zone"] then Some in_bc
  else if fm_parent f "kicad_pcb" && seqb ele "setup" then Some in_bbca
  else if fm_parent f "kicad_pcb" && mem ele ["general"; "net_class"; "module"] then Some in_bbc
  else if fm_parent f "general" || fm_parent f "layers" || fm_parent f "setup" || fm_parent f "pcbplotparams"
          || fm_parent f "net_class" then Some in_b
  else if fm_parent f "dimension" &&
    mem ele ["gr_text"; "feature1"; "feature2"; "crossbar"; "arrow1a"; "arrow1b"; "arrow2a"; "arrow2b"] then Some in_b
  else if fm_parent f "zone" && mem ele ["connect_pads"; "min_thickness"; "fill"; "keepout"; "priority"] then Some in_b
  else if fm_parent f "zone" && mem ele ["polygon"; "filled_polygon"] then Some in_bc
  else if fm_parent f "polygon" || fm_parent f "filled_polygon" then Some in_bc
  else None.

Definition want_name (f : fstate) (ele : str) : option indent :=
  match want_module f ele with
  | Some i => Some i
  | None => match want_layout f ele with Some i => Some i | None => want_fp_lib_table f end
  end.
(** formatter.rs:250-276 *)
Definition want (f : fstate) (v : sexp) : option indent :=
  match v with
  | SList (SStr e :: _) => want_name f e
  | SStr e => want_name f e
  | _ => None
  end.

Definition text_if (b : bool) (s : str) : str := if b then s else [].
Definition head_name (v : option sexp) : str := match v with Some (SStr s) => s | _ => [] end.

(** formatter.rs:280-337 *)
Definition fm_open (f0 : fstate) (v : option sexp) : fstate * str :=
  let ele := head_name v in
  (* 292-299 *)
  let nl1 := negb (seqb ele "module") && fm_parent f0 "kicad_pcb" && fs_seen_module f0 in
  let t1 := text_if nl1 (fm_indent f0 1) in
  let f1 := mk_fs (fs_indent f0) (fs_stack f0) (fs_pts f0)
              (if seqb ele "module" then true else if nl1 then false else fs_seen_module f0) (fs_seen_segment f0) in
  (* 301-307 *)
  let nl2 := negb (fs_seen_segment f1) && seqb ele "segment" in
  let t2 := text_if nl2 (fm_indent f1 1) in
  let f2 := mk_fs (fs_indent f1) (fs_stack f1) (fs_pts f1) (fs_seen_module f1) (fs_seen_segment f1 || nl2) in
  (* 309-316 *)
  let w := want_name f2 ele in
  let f3 := match w with
            | Some _ => mk_fs (fs_indent f2 + 1) (fs_stack f2) (fs_pts f2) (fs_seen_module f2) (fs_seen_segment f2)
            | None => f2
            end in
  let t3 := match w with Some i => text_if (0 <? in_before i)%Z (fm_indent f3 (in_before i)) | None => [] end in
  (* 318-329 *)
  let p1 := if seqb ele "pts" then 0%Z else fs_pts f3 in
  let p2 := if fm_parent f3 "pts" && seqb ele "xy" then (p1 + 1)%Z else p1 in
  (* 331-336 *)
  (mk_fs (fs_indent f3) ((if negb (is_empty ele) then Some (ele, w) else None) :: fs_stack f3) p2
     (fs_seen_module f3) (fs_seen_segment f3),
   t1 ++ t2 ++ t3 ++ [40%N]).

(** formatter.rs:339-350 *)
Definition fm_element (f : fstate) (v : sexp) : str :=
  match want f v, v with
  | None, _ => [32%N]
  | Some _, SStr _ => [32%N]
  | Some _, _ => []
  end.

(** formatter.rs:352-380 *)
Definition fm_close (f : fstate) : fstate * str :=
  let pop := mk_fs (fs_indent f) (tl (fs_stack f)) (fs_pts f) (fs_seen_module f) (fs_seen_segment f) in
  match fs_stack f with
  | Some (s, Some i) :: r =>
      let f1 := mk_fs (fs_indent f - 1) r (fs_pts f) (fs_seen_module f) (fs_seen_segment f) in
      (f1, text_if (in_close i) (fm_indent_plus f1 1) ++ text_if (seqb s "module" && match r with [] => true | _ => false end) [10%N]
           ++ [41%N] ++ repeat 10%N (Z.to_nat (in_after i)))
  | Some (s, None) :: r =>
      (pop, text_if (match r with [] => true | _ => false end && mem s ["module"; "kicad_pcb"; "fp_lib_table"]) [10%N] ++ [41%N])
  | _ => (pop, [41%N])
  end.

(** ** symbolic_expressions, text level *)

(** An atom is written in quotes when [nq] says so (see [quote_contract]). *)
Definition atom_text (nq : str -> bool) (s : str) : str :=
  if nq s then 34%N :: s ++ [34%N] else s.

(** The serializer: [open] with the first element, the first element, then
    [element] before each further element, then [close]. *)
Fixpoint fm_ser (nq : str -> bool) (s : sexp) (f : fstate) {struct s} : fstate * str :=
  match s with
  | SEmpty => (f, [])
  | SStr x => (f, atom_text nq x)
  | SList l =>
      let '(f1, t1) := fm_open f (hd_error l) in
      let '(f2, t2) :=
        match l with
        | [] => (f1, [])
        | x :: r =>
            let '(g, t) := fm_ser nq x f1 in
            let fix rest (l : list sexp) (g : fstate) {struct l} : fstate * str :=
              match l with
              | [] => (g, [])
              | y :: r' =>
                  let '(g1, t1) := fm_ser nq y g in
                  let '(g2, t2) := rest r' g1 in
                  (g2, fm_element g y ++ t1 ++ t2)
              end in
            let '(g', t') := rest r g in (g', t ++ t')
        end in
      let '(f3, t3) := fm_close f2 in
      (f3, t1 ++ t2 ++ t3)
  end.
(** [to_string_with_formatter] with [KicadFormatter::new(level)] *)
Definition pretty (nq : str -> bool) (level : Z) (s : sexp) : str := snd (fm_ser nq s (fs_new level)).

(** The plain rendering ([Display]): one blank between elements. *)
Fixpoint compact (nq : str -> bool) (s : sexp) : str :=
  match s with
  | SEmpty => []
  | SStr x => atom_text nq x
  | SList l =>
      40%N :: match l with
              | [] => []
              | x :: r => compact nq x ++ flat_map (fun y => 32%N :: compact nq y) r
              end ++ [41%N]
  end.

(** The reader: white space separates, quotes delimit. A backslash is a character like any
    other, which simplifies: the crate does not end a word at a quote after a backslash
    (tests/layout1.rs); see Escape.v for readers that know the backslash. *)
Inductive tok := LP | RP | At (s : str).
Inductive lst := LNone | LBare (acc : str) | LQuote (acc : str).
Fixpoint lex (st : lst) (s : str) : option (list tok) :=
  match s with
  | [] => match st with LNone => Some [] | LBare a => Some [At (rev a)] | LQuote _ => None end
  | c :: r =>
      match st with
      | LQuote a => if N.eqb c 34 then option_map (cons (At (rev a))) (lex LNone r) else lex (LQuote (c :: a)) r
      | _ =>
          let pre := match st with LBare a => [At (rev a)] | _ => [] end in
          if is_ws c then option_map (app pre) (lex LNone r)
          else if N.eqb c 40 then option_map (app (pre ++ [LP])) (lex LNone r)
          else if N.eqb c 41 then option_map (app (pre ++ [RP])) (lex LNone r)
          else if N.eqb c 34 then option_map (app pre) (lex (LQuote []) r)
          else lex (LBare (c :: match st with LBare a => a | _ => [] end)) r
      end
  end.
(** Nested lists under construction, innermost first, each reversed. *)
Fixpoint build (stk : list (list sexp)) (ts : list tok) : option (sexp * list tok) :=
  match ts with
  | [] => None
  | At x :: r => match stk with [] => Some (SStr x, r) | l :: k => build ((SStr x :: l) :: k) r end
  | LP :: r => build ([] :: stk) r
  | RP :: r =>
      match stk with
      | [] => None
      | [l] => Some (SList (rev l), r)
      | l :: l2 :: k => build ((SList (rev l) :: l2) :: k) r
      end
  end.
Definition read_sexp (s : str) : res sexp :=
  match lex LNone s with
  | Some ts => match build [] ts with Some (v, []) => Ok v | _ => Err ESexp end
  | None => Err ESexp
  end.
