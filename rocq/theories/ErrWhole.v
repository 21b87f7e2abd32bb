(** Refused or read, never both *)
From Coq Require Import String Lia.
From Verif Require Import Base Str StrFacts Num F64 F64Text LibFns LibSpec CutSpec CutFacts SchData SchPrint SchParse SchReadSpec SchReadFacts SymData SymParse SymReadSpec SymReadFacts
  OutSpec Said SchErr SymErr ErrErase ErrSpec ErrFacts ErrLines ErrSch ErrSym SchTotal SymTotal.
Open Scope string_scope. Open Scope list_scope.

Lemma schematic_says fn t m : schematic_said fn t = Says m <-> exists ls, text_lines t ls /\ refused ls (Some m).
Proof. exact (schematic_ends fn t (Some m)). Qed.
Lemma schematic_stops fn t : schematic_said fn t = Stops <-> exists ls, text_lines t ls /\ refused ls None.
Proof. exact (schematic_ends fn t None). Qed.
Lemma plain_iff {A} (r : said A) x : r = Fine x <-> plain r = Ok x.
Proof. split; [intros ->; reflexivity|apply plain_ok]. Qed.
Lemma schematic_fine fn t c : schematic_said fn t = Fine c <-> exists ls, text_lines t ls /\ schematic_text fn ls c.
Proof. rewrite <- schematic_iff, <- plain_schematic. apply plain_iff. Qed.
Lemma schematic_unspent fn t : schematic_said fn t <> Spent.
Proof. intros E. apply (nf_parse fn t). rewrite <- plain_schematic, E. reflexivity. Qed.
Lemma lines_said_unspent fn ls : lines_said fn ls <> Spent.
Proof.
  unfold lines_said. destruct (line_said ls _) as [p|k| |] eqn:E; cbn [sbind]; try discriminate.
  - destruct (libs_loop p []) as [libs q]. destruct q as [|e q]; cbn [here_said sbind]; [discriminate|]. destruct (negb _); [discriminate|]. cbn [next tl].
    destruct (line_said q _) as [r|k| |] eqn:F; cbn [sbind]; try discriminate.
    + intros M. pose proof (f_equal plain M) as P. cbn [plain] in P. rewrite plain_main in P. revert P. apply nf_main. lia.
    + unfold line_said in F. destruct q; [discriminate|]. destruct (str_eqb _ _); discriminate.
  - unfold line_said in E. destruct ls; [discriminate|]. destruct (str_eqb _ _); discriminate.
Qed.
Lemma plain_lines_said fn ls : plain (lines_said fn ls) = parse_lines fn ls.
Proof.
  unfold lines_said, parse_lines. apply plain_bind; [apply plain_line|]. intros p. destruct (libs_loop p []) as [libs q].
  apply plain_bind; [apply plain_here|]. intros e. destruct (negb _); [reflexivity|]. apply plain_bind; [apply plain_line|]. intros r. apply plain_main.
Qed.
Lemma lines_fine fn ls c : lines_said fn ls = Fine c <-> schematic_text fn ls c.
Proof. rewrite <- of_lines, plain_iff, plain_lines_said. reflexivity. Qed.
Lemma refused_fun ls m k : refused ls m -> refused ls k -> m = k.
Proof. rewrite <- !(lines_ends None). apply ends_fun. Qed.
Lemma refused_or_read fn ls : (exists c, schematic_text fn ls c) <-> ~ exists m, refused ls m.
Proof.
  split.
  - intros [c C] [m R]. apply (lines_ends fn) in R. apply lines_fine in C. rewrite C in R. exact (ends_fine _ _ R).
  - intros N. destruct (lines_said fn ls) as [c|k| |] eqn:E.
    + exists c. apply lines_fine. exact E.
    + exfalso. apply N. exists (Some k). apply (lines_ends fn). exact E.
    + exfalso. apply N. exists None. apply (lines_ends fn). exact E.
    + destruct (lines_said_unspent fn ls E).
Qed.

(** ** Libraries *)
Definition lib_said (ls : list str) : said (list symbol) :=
  try p <- line_said ls "EESchema-LIBRARY Version 2.3"; try p <- line_said p "#encoding utf-8"; try p <- line_said p "#"; symbols_said (length p) p [].
Lemma plain_lib ls : plain (lib_said ls) = parse_symbol_lines ls.
Proof. unfold lib_said, parse_symbol_lines. do 3 (apply plain_bind; [apply plain_line|]; intros ?). apply plain_symbols. Qed.
Lemma library_says t m : library_said t = Says m <-> exists ls, text_lines t ls /\ lib_refused ls (Some m).
Proof. exact (lib_ends t (Some m)). Qed.
Lemma library_stops t : library_said t = Stops <-> exists ls, text_lines t ls /\ lib_refused ls None.
Proof. exact (lib_ends t None). Qed.
Lemma library_fine t l : library_said t = Fine l <-> exists ls, text_lines t ls /\ library_text ls l.
Proof. rewrite <- library_iff, <- plain_library. apply plain_iff. Qed.
Lemma lib_fine ls l : lib_said ls = Fine l <-> library_text ls l.
Proof. rewrite <- library_ls, plain_iff, plain_lib. reflexivity. Qed.
Lemma lib_refused_fun ls m k : lib_refused ls m -> lib_refused ls k -> m = k.
Proof. rewrite <- !library_ends. apply ends_fun. Qed.
Lemma line_unspent p k : line_said p k <> Spent.
Proof. unfold line_said. destruct p; [discriminate|]. destruct (str_eqb _ _); discriminate. Qed.
Lemma lib_unspent ls : lib_said ls <> Spent.
Proof.
  unfold lib_said. destruct (line_said ls _) as [p|k| |] eqn:E; cbn [sbind]; try discriminate; [|destruct (line_unspent _ _ E)].
  destruct (line_said p _) as [p2|k| |] eqn:E2; cbn [sbind]; try discriminate; [|destruct (line_unspent _ _ E2)].
  destruct (line_said p2 _) as [p3|k| |] eqn:E3; cbn [sbind]; try discriminate; [|destruct (line_unspent _ _ E3)].
  intros M. pose proof (f_equal plain M) as P. cbn [plain] in P. rewrite plain_symbols in P. revert P. apply nf_symbols. lia.
Qed.
Lemma lib_refused_or_read ls : (exists l, library_text ls l) <-> ~ exists m, lib_refused ls m.
Proof.
  split.
  - intros [c C] [m R]. apply library_ends in R. apply lib_fine in C. unfold lib_said in C. rewrite C in R. exact (ends_fine _ _ R).
  - intros N. destruct (lib_said ls) as [c|k| |] eqn:E.
    + exists c. apply lib_fine. exact E.
    + exfalso. apply N. exists (Some k). apply library_ends. exact E.
    + exfalso. apply N. exists None. apply library_ends. exact E.
    + destruct (lib_unspent ls E).
Qed.
