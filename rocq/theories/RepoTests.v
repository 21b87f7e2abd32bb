(** Not a proof: the tests that come with the program (/repo/tests and the [#[test]]
    functions of /repo/src), run on the model.  They tie the model to the program at the
    points its authors chose. RepoTests2.v to RepoTests4.v have the longer files; only
    tests/layout1.rs is left out, see DESIGN.md. *)
From Coq Require Import String.
From Verif Require Import Base Str F64 F64Text FpData FpOps Bound LyData LyOps FpLibTable SchData SymData SymPrint DocText CheckFix KicadFile.
Open Scope string_scope. Open Scope list_scope.

(** ** src/checkfix.rs:317-333 *)
Example test_allowed_1_7_1 : allowed_1_7 (lit "Hello_world_1.23-4") = None.
Proof. vm_compute. reflexivity. Qed.
Example test_allowed_1_7_2 : allowed_1_7 (lit "Hello world") = Some [lit "Invalid char ' ' at 5 in 'Hello world'"].
Proof. vm_compute. reflexivity. Qed.

(** ** src/footprint/data.rs:1771-1801 *)
(** [f64::EPSILON] is 2^-52. *)
Definition epsilon : f64 := flit "2.220446049250313e-16".
Definition near (x y : f64) : bool := fltb (fabs (fsub x y)) epsilon.
Definition test_pad (rot : f64) : pad :=
  mk_pad (lit "hello") Smd Rect (mk_xy (flit "1.2") (flit "0.6") XSize) None (mk_at (flit "1.4") (flit "0.95") rot) [] None None None None None None None.
(** The test's [(a - b - c).abs() < EPSILON] *)
Definition pad_test (rot : f64) : list bool :=
  let p := test_pad rot in let b := pad_bound p in
  let w := fdiv (xy_x (pa_size p)) f2 in let h := fdiv (xy_y (pa_size p)) f2 in
  [near (fsub (bx2 b) (at_x (pa_at p))) w; near (fsub (by2 b) (at_y (pa_at p))) h;
   fltb (fabs (fadd (fsub (bx1 b) (at_x (pa_at p))) w)) epsilon; fltb (fabs (fadd (fsub (by1 b) (at_y (pa_at p))) h)) epsilon].
Example pad_bound_0 : pad_test fzero = [true; true; true; true].
Proof. vm_compute. reflexivity. Qed.
Example pad_bound_180 : pad_test (flit "180") = [true; true; true; true].
Proof. vm_compute. reflexivity. Qed.

(** ** src/layout/data.rs:934-959 *)
Example test_is_unnamed_net : is_unnamed_net (lit "HELLO") = None /\ is_unnamed_net (lit "Net-(L1-Pad1)") = Some (lit "L1", lit "Pad1").
Proof. vm_compute. split; reflexivity. Qed.
Example test_unnamed_rename : let (n, e) := set_unnamed_net (lit "L101") (lit "Net-(L1-Pad1)") in e = None /\ is_unnamed_net n = Some (lit "L101", lit "Pad1").
Proof. vm_compute. split; reflexivity. Qed.

(** ** tests/*.rs: what is read from a file is written again as it was *)
Definition text_of (l : list string) : str := concat (map (fun s => lit s ++ [10%N]) l).
Definition test_disk (t : str) : files := fun n => if str_eqb n (lit "f") then Some t else None.
Definition equals (r : res str) (t : str) : bool := match r with Ok s => str_eqb s t | _ => false end.
(** The words quoted in these files are those with a blank, a parenthesis, a brace or
    nothing in them. *)
Definition quoted (s : str) : bool := is_empty s || existsb (fun c => is_ws c || N.eqb c 40 || N.eqb c 41 || N.eqb c 34 || N.eqb c 123) s.

(** tests/data/fp-lib-table (tests/fp-lib-table1.rs) *)
Definition table_file_0 : list string := [
  "(fp_lib_table";
  "  (lib(name button)(type KiCad)(uri ""${MY_KICAD}/mod/button.pretty"")(options """")(descr """"))";
  "  (lib(name ic)(type KiCad)(uri ""${MY_KICAD}/mod/ic.pretty"")(options """")(descr """"))";
  "  (lib(name led)(type KiCad)(uri ""${MY_KICAD}/mod/led.pretty"")(options """")(descr """"))";
  ")"].
Definition table_file : str := text_of (table_file_0).
(** The last newline is not written; the test puts up with one difference. *)
Example fp_lib_table1 : equals (do t <- read_fp_lib_table (test_disk table_file) (lit "f"); Ok (table_to_string quoted t 0 ++ [10%N])) table_file = true.
Proof. vm_compute. reflexivity. Qed.

(** tests/data/footprint1.kicad_mod (tests/footprint1.rs) *)
Definition footprint_file_0 : list string := [
  "(module SOT-23 (layer F.Cu) (tedit 574C50E6)";
  "  (descr ""generic SOT-23 footprint"")";
  "  (fp_text reference U1 (at 2.3 0) (layer F.SilkS)";
  "    (effects (font (size 0.625 0.625) (thickness 0.1)))";
  "  )";
  "  (fp_text value MOSFET-N-GSD (at 0 2.6) (layer F.SilkS) hide";
  "    (effects (font (size 0.625 0.625) (thickness 0.1)))";
  "  )";
  "  (fp_line (start -1.5 0.7) (end 1.5 0.7) (layer Dwgs.User) (width 0.1))";
  "  (fp_line (start 1.5 0.7) (end 1.5 -0.7) (layer Dwgs.User) (width 0.1))";
  "  (fp_line (start 1.5 -0.7) (end -1.5 -0.7) (layer Dwgs.User) (width 0.1))";
  "  (fp_line (start -1.5 -0.7) (end -1.5 0.7) (layer Dwgs.User) (width 0.1))";
  "  (fp_line (start -1.5 1.5) (end 1.5 1.5) (layer F.SilkS) (width 0.1))";
  "  (fp_line (start 1.5 1.5) (end 1.5 -1.5) (layer F.SilkS) (width 0.1))";
  "  (fp_line (start 1.5 -1.5) (end -1.5 -1.5) (layer F.SilkS) (width 0.1))";
  "  (fp_line (start -1.5 -1.5) (end -1.5 1.5) (layer F.SilkS) (width 0.1))";
  "  (fp_poly (pts (xy -0.25 -1.15) (xy -0.25 -0.65) (xy 0.25 -0.65) (xy 0.25 -1.15)";
  "    (xy -0.25 -1.15)) (layer Dwgs.User) (width 0.15))";
  "  (fp_poly (pts (xy -1.2 0.65) (xy -1.2 1.15) (xy -0.7 1.15) (xy -0.7 0.65)";
  "    (xy -1.2 0.65)) (layer Dwgs.User) (width 0.15))";
  "  (fp_poly (pts (xy 0.7 0.65) (xy 0.7 1.15) (xy 1.2 1.15) (xy 1.2 0.65)";
  "    (xy 0.7 0.65)) (layer Dwgs.User) (width 0.15))";
  "  (pad 1 smd rect (at -0.95 0.885) (size 0.802 0.972) (layers F.Cu F.Paste F.Mask))";
  "  (pad 2 smd rect (at 0.95 0.885) (size 0.802 0.972) (layers F.Cu F.Paste F.Mask))";
  "  (pad 3 smd rect (at 0 -0.885) (size 0.802 0.972) (layers F.Cu F.Paste F.Mask))"].
Definition footprint_file_1 : list string := [
  "  (model external/kicad-library/modules/packages3d/TO_SOT_Packages_SMD.3dshapes/SOT-23.wrl";
  "    (at (xyz 0 0 0))";
  "    (scale (xyz 1 1 1))";
  "    (rotate (xyz 0 0 0))";
  "  )";
  ")"].
Definition footprint_file : str := text_of (footprint_file_0 ++ footprint_file_1).
Example footprint1 : equals (do m <- read_module (test_disk footprint_file) (lit "f"); Ok (module_to_string quoted m 0 ++ [10%N])) footprint_file = true.
Proof. vm_compute. reflexivity. Qed.

(** tests/data/symbol_lib1-cache.lib (tests/symbol_lib1.rs) *)
Definition library_file_0 : list string := [
  "EESchema-LIBRARY Version 2.3";
  "#encoding utf-8";
  "#";
  "# GND";
  "#";
  "DEF ~GND #PWR 0 0 Y Y 1 F P";
  "F0 ""#PWR"" 0 0 50 H I C CNN";
  "F1 ""GND"" 0 0 50 H I C CNN";
  "F2 """" 0 0 50 H I C CNN";
  "F3 """" 0 0 50 H I C CNN";
  "DRAW";
  "P 4 0 1 0  -50 0  0 -50  50 0  -50 0 N";
  "X GND 1 0 0 0 U 30 30 1 1 W N";
  "ENDDRAW";
  "ENDDEF";
  "#";
  "# L";
  "#";
  "DEF L L 0 40 N N 1 F N";
  "F0 ""L"" 0 50 40 H V C CNN";
  "F1 ""L"" 0 -50 40 H V C CNN";
  "F2 """" 0 0 60 H V C CNN";
  "F3 """" 0 0 60 H V C CNN";
  "DRAW";
  "A -13 0 12 -1799 -1 0 1 0 N -25 0 0 0"].
Definition library_file_1 : list string := [
  "A 12 0 12 -1799 -1 0 1 0 N 0 0 25 0";
  "P 2 0 1 0  -25 0  -50 0 N";
  "P 2 0 1 0  25 0  50 0 N";
  "X 1 1 -50 0 0 R 25 25 1 1 P";
  "X 2 2 50 0 0 R 25 25 1 1 P";
  "ENDDRAW";
  "ENDDEF";
  "#";
  "# R";
  "#";
  "DEF R R 0 40 N N 1 F N";
  "F0 ""R"" 0 50 40 H V C CNN";
  "F1 ""R"" 0 -50 40 H V C CNN";
  "F2 """" 0 0 60 H V C CNN";
  "F3 """" 0 0 60 H V C CNN";
  "DRAW";
  "S 25 10 -25 -10 0 1 0 f";
  "P 2 0 1 0  -25 0  -50 0 N";
  "P 2 0 1 0  50 0  25 0 N";
  "X 1 1 -50 0 0 R 25 25 1 1 P";
  "X 2 2 50 0 0 R 25 25 1 1 P";
  "ENDDRAW";
  "ENDDEF";
  "#";
  "# ST-USBLC6-2"].
Definition library_file_2 : list string := [
  "#";
  "DEF ST-USBLC6-2 U 0 40 Y Y 1 F N";
  "F0 ""U"" 150 250 60 H V C CNN";
  "F1 ""ST-USBLC6-2"" 400 -250 60 H V C CNN";
  "F2 """" 0 0 60 H V C CNN";
  "F3 """" 0 0 60 H V C CNN";
  "ALIAS WILMA BARNEY";
  "DRAW";
  "S -250 150 250 -150 0 1 0 N";
  "X IO1 1 -350 50 100 R 50 50 1 1 I";
  "X GND 2 50 -250 100 U 50 50 1 1 W";
  "X IO2 3 -350 -50 100 R 50 50 1 1 I";
  "X IO2 4 350 -50 100 L 50 50 1 1 I";
  "X VBUS 5 -50 250 100 D 50 50 1 1 W";
  "X IO1 6 350 50 100 L 50 50 1 1 I";
  "ENDDRAW";
  "ENDDEF";
  "#";
  "# USB-C-WE-623723x00011";
  "#";
  "DEF USB-C-WE-623723x00011 J 0 40 Y Y 1 F N";
  "F0 ""J"" 0 850 60 H V C CNN";
  "F1 ""USB-C-WE-623723x00011"" -50 750 60 H V C CNN";
  "F2 ""USB-C:USB-C-WE-632-723-x00-011"" 150 950 60 H I C CNN";
  "F3 """" 350 200 60 H V C CNN"].
Definition library_file_3 : list string := [
  "ALIAS FRED_FLINTSTONE";
  "DRAW";
  "S -400 600 400 -800 0 1 0 N";
  "X GND 1 -150 -900 100 U 50 50 1 1 I";
  "X GND 2 -50 -900 100 U 50 50 1 1 I";
  "X GND 3 50 -900 100 U 50 50 1 1 I";
  "X GND 4 150 -900 100 U 50 50 1 1 I";
  "X GND 5 250 -900 100 U 50 50 1 1 I";
  "X GND 6 350 -900 100 U 50 50 1 1 I";
  "X GND A1 -500 550 100 R 50 50 1 1 I";
  "X GND B1 500 -550 100 L 50 50 1 1 I";
  "X GND G1 -350 -900 100 U 50 50 1 1 I";
  "X SSTXp1 A2 -500 450 100 R 50 50 1 1 I";
  "X SSTXp2 B2 500 -450 100 L 50 50 1 1 I";
  "X GND G2 -250 -900 100 U 50 50 1 1 I";
  "X SSTXn1 A3 -500 350 100 R 50 50 1 1 I";
  "X SSTXn2 B3 500 -350 100 L 50 50 1 1 I";
  "X VBUS A4 -500 250 100 R 50 50 1 1 I";
  "X VBUS B4 500 -250 100 L 50 50 1 1 I";
  "X CC1 A5 -500 150 100 R 50 50 1 1 I";
  "X CC2 B5 500 -150 100 L 50 50 1 1 I";
  "X Dp1 A6 -500 50 100 R 50 50 1 1 I";
  "X Dp2 B6 500 -50 100 L 50 50 1 1 I";
  "X Dn1 A7 -500 -50 100 R 50 50 1 1 I";
  "X Dn2 B7 500 50 100 L 50 50 1 1 I"].
Definition library_file_4 : list string := [
  "X SBU1 A8 -500 -150 100 R 50 50 1 1 I";
  "X SBU2 B8 500 150 100 L 50 50 1 1 I";
  "X VBUS A9 -500 -250 100 R 50 50 1 1 I";
  "X VBUS B9 500 250 100 L 50 50 1 1 I";
  "X SSRXn2 A10 -500 -350 100 R 50 50 1 1 I";
  "X SSRXn1 B10 500 350 100 L 50 50 1 1 I";
  "X SSRXp2 A11 -500 -450 100 R 50 50 1 1 I";
  "X SSRXp1 B11 500 450 100 L 50 50 1 1 I";
  "X GND A12 -500 -550 100 R 50 50 1 1 I";
  "X GND B12 500 550 100 L 50 50 1 1 I";
  "ENDDRAW";
  "ENDDEF";
  "#";
  "#End Library"].
Definition library_file : str := text_of (library_file_0 ++ library_file_1 ++ library_file_2 ++ library_file_3 ++ library_file_4).
Example symbol_lib1 : equals (do l <- read_symbol_lib (test_disk library_file) (lit "f"); print_symbol_lib l) library_file = true.
Proof. vm_compute. reflexivity. Qed.
