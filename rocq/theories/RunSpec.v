(** Specification: all that the programs of src/bin do (C94). *)
From Coq Require Import String.
From Verif Require Import Base Str Num F64 F64Text FpData LyData LySpec SymData FpSer LySer KicadFile CheckFix FpCheck CheckSpec RuleSpec TextSpec SpellSpec OutSpec CutSpec.
Open Scope string_scope. Open Scope list_scope.

(** The file [n] is named by the first argument after the program and holds [t]. *)
Definition names (fs : files) (args : list str) (n t : str) : Prop := (exists p r, args = p :: n :: r) /\ fs n = Some t.
(** A finding as it is logged; the mark says that it is a warning *)
Definition told (i : cf_item) : bool * str :=
  (negb (it_info i), lit "  " ++ show_Z (it_section i) ++ lit "." ++ show_Z (it_rule i) ++ lit " " ++ it_item i ++ lit ":" ++ it_message i).
(** Findings about something: nothing if there are none, else its name first *)
Definition listed (what : string) (name : str) (l : list cf_item) : list (bool * str) :=
  match l with [] => [] | _ => (false, lit what ++ name) :: map told l end.
(** The findings about a symbol, one after the other *)
Definition symbol_findings (s : symbol) (l : list cf_item) : Prop :=
  exists fs gs, Forall2 (fun f l => reported (field_rules s f) l) (sy_fields s) fs
  /\ (((power s \/ graphics s) /\ gs = []) \/ (~ power s /\ ~ graphics s /\ Forall2 (fun d l => reported (draw_rules d) l) (sy_draw s) gs))
  /\ l = map (bad_char_item (without_tilde (sy_name s))) (bad_chars (without_tilde (sy_name s))) ++ concat fs ++ concat gs.
Definition kind_word (f : kicad_file) : str :=
  match f with
  | KModule _ => lit "module" | KSchematic _ => lit "schematic" | KLayout _ => lit "layout" | KSymbolLib _ => lit "symbollib"
  | KProject _ => lit "project" | KFpLibTable _ => lit "fp-lib-table" | KUnknown n => lit "unknown: " ++ n
  end.
Definition moved (x y : f64) (l l' : layout) : Prop :=
  ly_header l' = ly_header l /\ map wipe (ly_elements l') = map wipe (ly_elements l) /\
  map positions (ly_elements l') = map (fun e => map (fun p => (fadd (fst p) x, fadd (snd p) y)) (positions e)) (ly_elements l).
(** The reports printed while a file is read as something else than a footprint *)
Definition reports_of (t : str) (m : list str) : Prop :=
  exists ls, text_lines t ls /\
  (((forall body, ~ headed ls body) /\ m = []) \/
   exists body, headed ls body /\ (exists l r, body = l ++ r /\ goes l m) /\ forall l r n, body = l ++ r -> goes l n -> exists k, m = n ++ k).
