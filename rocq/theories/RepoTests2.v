(** Not a proof: tests/footprint2.rs and src/footprint/data.rs:1803-1813 on the model. *)
From Coq Require Import String.
From Verif Require Import Base Str F64 F64Text FpData FpOps Bound LyData LyOps SchData SchPrint DocText KicadFile RepoTests.
Open Scope string_scope. Open Scope list_scope.

Definition footprint2_file_0 : list string := [
  "(module QFN24_SILABS_EFM32 (layer F.Cu) (tedit 0)";
  "  (descr ""generic QFN24 footprint\nbased on EFM32ZG110FXX"")";
  "  (fp_text reference REF** (at 0 -4) (layer F.SilkS)";
  "    (effects (font (size 0.625 0.625) (thickness 0.1)))";
  "  )";
  "  (fp_text value VAL** (at 0 4) (layer F.SilkS) hide";
  "    (effects (font (size 0.625 0.625) (thickness 0.1)))";
  "  )";
  "  (fp_poly (pts (xy -2.575 -1.775) (xy -2.575 -1.475) (xy -2.025 -1.475) (xy -2.025 -1.775)";
  "    (xy -2.575 -1.775)) (layer Dwgs.User) (width 0))";
  "  (fp_poly (pts (xy -2.575 -1.125) (xy -2.575 -0.825) (xy -2.025 -0.825) (xy -2.025 -1.125)";
  "    (xy -2.575 -1.125)) (layer Dwgs.User) (width 0))";
  "  (fp_poly (pts (xy -2.575 -0.475) (xy -2.575 -0.175) (xy -2.025 -0.175) (xy -2.025 -0.475)";
  "    (xy -2.575 -0.475)) (layer Dwgs.User) (width 0))";
  "  (fp_poly (pts (xy -2.575 0.175) (xy -2.575 0.475) (xy -2.025 0.475) (xy -2.025 0.175)";
  "    (xy -2.575 0.175)) (layer Dwgs.User) (width 0))";
  "  (fp_poly (pts (xy -2.575 0.825) (xy -2.575 1.125) (xy -2.025 1.125) (xy -2.025 0.825)";
  "    (xy -2.575 0.825)) (layer Dwgs.User) (width 0))";
  "  (fp_poly (pts (xy -2.575 1.475) (xy -2.575 1.775) (xy -2.025 1.775) (xy -2.025 1.475)";
  "    (xy -2.575 1.475)) (layer Dwgs.User) (width 0))";
  "  (fp_poly (pts (xy -1.9 2.15) (xy -1.9 2.45) (xy -1.35 2.45) (xy -1.35 2.15)";
  "    (xy -1.9 2.15)) (layer Dwgs.User) (width 0))";
  "  (fp_poly (pts (xy -1.25 2.15) (xy -1.25 2.45) (xy -0.7 2.45) (xy -0.7 2.15)";
  "    (xy -1.25 2.15)) (layer Dwgs.User) (width 0))";
  "  (fp_poly (pts (xy -0.6 2.15) (xy -0.6 2.45) (xy -0.05 2.45) (xy -0.05 2.15)"].
Definition footprint2_file_1 : list string := [
  "    (xy -0.6 2.15)) (layer Dwgs.User) (width 0))";
  "  (fp_poly (pts (xy 0.05 2.15) (xy 0.05 2.45) (xy 0.6 2.45) (xy 0.6 2.15)";
  "    (xy 0.05 2.15)) (layer Dwgs.User) (width 0))";
  "  (fp_poly (pts (xy 0.7 2.15) (xy 0.7 2.45) (xy 1.25 2.45) (xy 1.25 2.15)";
  "    (xy 0.7 2.15)) (layer Dwgs.User) (width 0))";
  "  (fp_poly (pts (xy 1.35 2.15) (xy 1.35 2.45) (xy 1.9 2.45) (xy 1.9 2.15)";
  "    (xy 1.35 2.15)) (layer Dwgs.User) (width 0))";
  "  (fp_poly (pts (xy 2.025 1.475) (xy 2.025 1.775) (xy 2.575 1.775) (xy 2.575 1.475)";
  "    (xy 2.025 1.475)) (layer Dwgs.User) (width 0))";
  "  (fp_poly (pts (xy 2.025 0.825) (xy 2.025 1.125) (xy 2.575 1.125) (xy 2.575 0.825)";
  "    (xy 2.025 0.825)) (layer Dwgs.User) (width 0))";
  "  (fp_poly (pts (xy 2.025 0.175) (xy 2.025 0.475) (xy 2.575 0.475) (xy 2.575 0.175)";
  "    (xy 2.025 0.175)) (layer Dwgs.User) (width 0))";
  "  (fp_poly (pts (xy 2.025 -0.475) (xy 2.025 -0.175) (xy 2.575 -0.175) (xy 2.575 -0.475)";
  "    (xy 2.025 -0.475)) (layer Dwgs.User) (width 0))";
  "  (fp_poly (pts (xy 2.025 -1.125) (xy 2.025 -0.825) (xy 2.575 -0.825) (xy 2.575 -1.125)";
  "    (xy 2.025 -1.125)) (layer Dwgs.User) (width 0))";
  "  (fp_poly (pts (xy 2.025 -1.775) (xy 2.025 -1.475) (xy 2.575 -1.475) (xy 2.575 -1.775)";
  "    (xy 2.025 -1.775)) (layer Dwgs.User) (width 0))";
  "  (fp_poly (pts (xy 1.35 -2.45) (xy 1.35 -2.15) (xy 1.9 -2.15) (xy 1.9 -2.45)";
  "    (xy 1.35 -2.45)) (layer Dwgs.User) (width 0))";
  "  (fp_poly (pts (xy 0.7 -2.45) (xy 0.7 -2.15) (xy 1.25 -2.15) (xy 1.25 -2.45)";
  "    (xy 0.7 -2.45)) (layer Dwgs.User) (width 0))";
  "  (fp_poly (pts (xy 0.05 -2.45) (xy 0.05 -2.15) (xy 0.6 -2.15) (xy 0.6 -2.45)";
  "    (xy 0.05 -2.45)) (layer Dwgs.User) (width 0))"].
Definition footprint2_file_2 : list string := [
  "  (fp_poly (pts (xy -0.6 -2.45) (xy -0.6 -2.15) (xy -0.05 -2.15) (xy -0.05 -2.45)";
  "    (xy -0.6 -2.45)) (layer Dwgs.User) (width 0))";
  "  (fp_poly (pts (xy -1.25 -2.45) (xy -1.25 -2.15) (xy -0.7 -2.15) (xy -0.7 -2.45)";
  "    (xy -1.25 -2.45)) (layer Dwgs.User) (width 0))";
  "  (fp_poly (pts (xy -1.9 -2.45) (xy -1.9 -2.15) (xy -1.35 -2.15) (xy -1.35 -2.45)";
  "    (xy -1.9 -2.45)) (layer Dwgs.User) (width 0))";
  "  (fp_line (start -2.5 2.5) (end 2.5 2.5) (layer Dwgs.User) (width 0.1))";
  "  (fp_line (start 2.5 2.5) (end 2.5 -2.5) (layer Dwgs.User) (width 0.1))";
  "  (fp_line (start 2.5 -2.5) (end -2.5 -2.5) (layer Dwgs.User) (width 0.1))";
  "  (fp_line (start -2.5 -2.5) (end -2.5 2.5) (layer Dwgs.User) (width 0.1))";
  "  (fp_poly (pts (xy -1.65 -1.65) (xy -1.65 1.65) (xy 1.65 1.65) (xy 1.65 -1.65)";
  "    (xy -1.65 -1.65)) (layer Dwgs.User) (width 0))";
  "  (fp_circle (center -2.6 -2.6) (end -2.467417 -2.467417) (layer F.SilkS) (width 0.1875))";
  "  (fp_line (start -3.45 3.45) (end 3.45 3.45) (layer F.SilkS) (width 0.1))";
  "  (fp_line (start 3.45 3.45) (end 3.45 -3.45) (layer F.SilkS) (width 0.1))";
  "  (fp_line (start 3.45 -3.45) (end -3.45 -3.45) (layer F.SilkS) (width 0.1))";
  "  (fp_line (start -3.45 -3.45) (end -3.45 3.45) (layer F.SilkS) (width 0.1))";
  "  (pad 1 smd rect (at -2.575 -1.625 180) (size 1.1 0.3) (layers F.Cu F.Paste F.Mask))";
  "  (pad 2 smd rect (at -2.575 -0.975 180) (size 1.1 0.3) (layers F.Cu F.Paste F.Mask))";
  "  (pad 3 smd rect (at -2.575 -0.325 180) (size 1.1 0.3) (layers F.Cu F.Paste F.Mask))";
  "  (pad 4 smd rect (at -2.575 0.325 180) (size 1.1 0.3) (layers F.Cu F.Paste F.Mask))";
  "  (pad 5 smd rect (at -2.575 0.975 180) (size 1.1 0.3) (layers F.Cu F.Paste F.Mask))";
  "  (pad 6 smd rect (at -2.575 1.625 180) (size 1.1 0.3) (layers F.Cu F.Paste F.Mask))";
  "  (pad 7 smd rect (at -1.625 2.575 90) (size 1.1 0.3) (layers F.Cu F.Paste F.Mask))";
  "  (pad 8 smd rect (at -0.975 2.575 90) (size 1.1 0.3) (layers F.Cu F.Paste F.Mask))"].
Definition footprint2_file_3 : list string := [
  "  (pad 9 smd rect (at -0.325 2.575 90) (size 1.1 0.3) (layers F.Cu F.Paste F.Mask))";
  "  (pad 10 smd rect (at 0.325 2.575 90) (size 1.1 0.3) (layers F.Cu F.Paste F.Mask))";
  "  (pad 11 smd rect (at 0.975 2.575 90) (size 1.1 0.3) (layers F.Cu F.Paste F.Mask))";
  "  (pad 12 smd rect (at 1.625 2.575 90) (size 1.1 0.3) (layers F.Cu F.Paste F.Mask))";
  "  (pad 13 smd rect (at 2.575 1.625) (size 1.1 0.3) (layers F.Cu F.Paste F.Mask))";
  "  (pad 14 smd rect (at 2.575 0.975) (size 1.1 0.3) (layers F.Cu F.Paste F.Mask))";
  "  (pad 15 smd rect (at 2.575 0.325) (size 1.1 0.3) (layers F.Cu F.Paste F.Mask))";
  "  (pad 16 smd rect (at 2.575 -0.325) (size 1.1 0.3) (layers F.Cu F.Paste F.Mask))";
  "  (pad 17 smd rect (at 2.575 -0.975) (size 1.1 0.3) (layers F.Cu F.Paste F.Mask))";
  "  (pad 18 smd rect (at 2.575 -1.625) (size 1.1 0.3) (layers F.Cu F.Paste F.Mask))";
  "  (pad 19 smd rect (at 1.625 -2.575 270) (size 1.1 0.3) (layers F.Cu F.Paste F.Mask))";
  "  (pad 20 smd rect (at 0.975 -2.575 270) (size 1.1 0.3) (layers F.Cu F.Paste F.Mask))";
  "  (pad 21 smd rect (at 0.325 -2.575 270) (size 1.1 0.3) (layers F.Cu F.Paste F.Mask))";
  "  (pad 22 smd rect (at -0.325 -2.575 270) (size 1.1 0.3) (layers F.Cu F.Paste F.Mask))";
  "  (pad 23 smd rect (at -0.975 -2.575 270) (size 1.1 0.3) (layers F.Cu F.Paste F.Mask))";
  "  (pad 24 smd rect (at -1.625 -2.575 270) (size 1.1 0.3) (layers F.Cu F.Paste F.Mask))";
  "  (pad 0 smd rect (at 0 0) (size 3.3 3.3) (layers F.Cu F.Paste F.Mask))";
  ")"].
Definition footprint2_file : str := text_of (footprint2_file_0 ++ footprint2_file_1 ++ footprint2_file_2 ++ footprint2_file_3).
Example footprint2 : equals (do m <- read_module (test_disk footprint2_file) (lit "f"); Ok (module_to_string quoted m 0 ++ [10%N])) footprint2_file = true.
Proof. vm_compute. reflexivity. Qed.
Definition cy_file_0 : list string := [
  "(module QFN-32_cypress_cy7c65213 (layer F.Cu) (tedit 588A0639)";
  "  (fp_text reference REF** (at 0 -4) (layer F.SilkS)";
  "    (effects (font (size 0.625 0.625) (thickness 0.1)))";
  "  )";
  "  (fp_text value VAL** (at 0 4) (layer F.SilkS) hide";
  "    (effects (font (size 0.625 0.625) (thickness 0.1)))";
  "  )";
  "  (fp_poly (pts (xy -2.925 -1.87) (xy -2.925 -1.63) (xy -2.075 -1.63) (xy -2.075 -1.87)";
  "    (xy -2.925 -1.87)) (layer F.Paste) (width 0))";
  "  (fp_poly (pts (xy -2.925 -1.37) (xy -2.925 -1.13) (xy -2.075 -1.13) (xy -2.075 -1.37)";
  "    (xy -2.925 -1.37)) (layer F.Paste) (width 0))";
  "  (fp_poly (pts (xy -2.925 -0.87) (xy -2.925 -0.63) (xy -2.075 -0.63) (xy -2.075 -0.87)";
  "    (xy -2.925 -0.87)) (layer F.Paste) (width 0))";
  "  (fp_poly (pts (xy -2.925 -0.37) (xy -2.925 -0.13) (xy -2.075 -0.13) (xy -2.075 -0.37)";
  "    (xy -2.925 -0.37)) (layer F.Paste) (width 0))";
  "  (fp_poly (pts (xy -2.925 0.13) (xy -2.925 0.37) (xy -2.075 0.37) (xy -2.075 0.13)";
  "    (xy -2.925 0.13)) (layer F.Paste) (width 0))";
  "  (fp_poly (pts (xy -2.925 0.63) (xy -2.925 0.87) (xy -2.075 0.87) (xy -2.075 0.63)";
  "    (xy -2.925 0.63)) (layer F.Paste) (width 0))";
  "  (fp_poly (pts (xy -2.925 1.13) (xy -2.925 1.37) (xy -2.075 1.37) (xy -2.075 1.13)";
  "    (xy -2.925 1.13)) (layer F.Paste) (width 0))";
  "  (fp_poly (pts (xy -2.925 1.63) (xy -2.925 1.87) (xy -2.075 1.87) (xy -2.075 1.63)";
  "    (xy -2.925 1.63)) (layer F.Paste) (width 0))";
  "  (fp_poly (pts (xy -1.87 2.075) (xy -1.87 2.925) (xy -1.63 2.925) (xy -1.63 2.075)";
  "    (xy -1.87 2.075)) (layer F.Paste) (width 0))"].
Definition cy_file_1 : list string := [
  "  (fp_poly (pts (xy -1.37 2.075) (xy -1.37 2.925) (xy -1.13 2.925) (xy -1.13 2.075)";
  "    (xy -1.37 2.075)) (layer F.Paste) (width 0))";
  "  (fp_poly (pts (xy -0.87 2.075) (xy -0.87 2.925) (xy -0.63 2.925) (xy -0.63 2.075)";
  "    (xy -0.87 2.075)) (layer F.Paste) (width 0))";
  "  (fp_poly (pts (xy -0.37 2.075) (xy -0.37 2.925) (xy -0.13 2.925) (xy -0.13 2.075)";
  "    (xy -0.37 2.075)) (layer F.Paste) (width 0))";
  "  (fp_poly (pts (xy 0.13 2.075) (xy 0.13 2.925) (xy 0.37 2.925) (xy 0.37 2.075)";
  "    (xy 0.13 2.075)) (layer F.Paste) (width 0))";
  "  (fp_poly (pts (xy 0.63 2.075) (xy 0.63 2.925) (xy 0.87 2.925) (xy 0.87 2.075)";
  "    (xy 0.63 2.075)) (layer F.Paste) (width 0))";
  "  (fp_poly (pts (xy 1.13 2.075) (xy 1.13 2.925) (xy 1.37 2.925) (xy 1.37 2.075)";
  "    (xy 1.13 2.075)) (layer F.Paste) (width 0))";
  "  (fp_poly (pts (xy 1.63 2.075) (xy 1.63 2.925) (xy 1.87 2.925) (xy 1.87 2.075)";
  "    (xy 1.63 2.075)) (layer F.Paste) (width 0))";
  "  (fp_poly (pts (xy 2.075 1.63) (xy 2.075 1.87) (xy 2.925 1.87) (xy 2.925 1.63)";
  "    (xy 2.075 1.63)) (layer F.Paste) (width 0))";
  "  (fp_poly (pts (xy 2.075 1.13) (xy 2.075 1.37) (xy 2.925 1.37) (xy 2.925 1.13)";
  "    (xy 2.075 1.13)) (layer F.Paste) (width 0))";
  "  (fp_poly (pts (xy 2.075 0.63) (xy 2.075 0.87) (xy 2.925 0.87) (xy 2.925 0.63)";
  "    (xy 2.075 0.63)) (layer F.Paste) (width 0))";
  "  (fp_poly (pts (xy 2.075 0.13) (xy 2.075 0.37) (xy 2.925 0.37) (xy 2.925 0.13)";
  "    (xy 2.075 0.13)) (layer F.Paste) (width 0))";
  "  (fp_poly (pts (xy 2.075 -0.37) (xy 2.075 -0.13) (xy 2.925 -0.13) (xy 2.925 -0.37)";
  "    (xy 2.075 -0.37)) (layer F.Paste) (width 0))";
  "  (fp_poly (pts (xy 2.075 -0.87) (xy 2.075 -0.63) (xy 2.925 -0.63) (xy 2.925 -0.87)"].
Definition cy_file_2 : list string := [
  "    (xy 2.075 -0.87)) (layer F.Paste) (width 0))";
  "  (fp_poly (pts (xy 2.075 -1.37) (xy 2.075 -1.13) (xy 2.925 -1.13) (xy 2.925 -1.37)";
  "    (xy 2.075 -1.37)) (layer F.Paste) (width 0))";
  "  (fp_poly (pts (xy 2.075 -1.87) (xy 2.075 -1.63) (xy 2.925 -1.63) (xy 2.925 -1.87)";
  "    (xy 2.075 -1.87)) (layer F.Paste) (width 0))";
  "  (fp_poly (pts (xy 1.63 -2.925) (xy 1.63 -2.075) (xy 1.87 -2.075) (xy 1.87 -2.925)";
  "    (xy 1.63 -2.925)) (layer F.Paste) (width 0))";
  "  (fp_poly (pts (xy 1.13 -2.925) (xy 1.13 -2.075) (xy 1.37 -2.075) (xy 1.37 -2.925)";
  "    (xy 1.13 -2.925)) (layer F.Paste) (width 0))";
  "  (fp_poly (pts (xy 0.63 -2.925) (xy 0.63 -2.075) (xy 0.87 -2.075) (xy 0.87 -2.925)";
  "    (xy 0.63 -2.925)) (layer F.Paste) (width 0))";
  "  (fp_poly (pts (xy 0.13 -2.925) (xy 0.13 -2.075) (xy 0.37 -2.075) (xy 0.37 -2.925)";
  "    (xy 0.13 -2.925)) (layer F.Paste) (width 0))";
  "  (fp_poly (pts (xy -0.37 -2.925) (xy -0.37 -2.075) (xy -0.13 -2.075) (xy -0.13 -2.925)";
  "    (xy -0.37 -2.925)) (layer F.Paste) (width 0))";
  "  (fp_poly (pts (xy -0.87 -2.925) (xy -0.87 -2.075) (xy -0.63 -2.075) (xy -0.63 -2.925)";
  "    (xy -0.87 -2.925)) (layer F.Paste) (width 0))";
  "  (fp_poly (pts (xy -1.37 -2.925) (xy -1.37 -2.075) (xy -1.13 -2.075) (xy -1.13 -2.925)";
  "    (xy -1.37 -2.925)) (layer F.Paste) (width 0))";
  "  (fp_poly (pts (xy -1.87 -2.925) (xy -1.87 -2.075) (xy -1.63 -2.075) (xy -1.63 -2.925)";
  "    (xy -1.87 -2.925)) (layer F.Paste) (width 0))";
  "  (fp_line (start -2.5 2.5) (end 2.5 2.5) (layer Dwgs.User) (width 0.1))";
  "  (fp_line (start 2.5 2.5) (end 2.5 -2.5) (layer Dwgs.User) (width 0.1))";
  "  (fp_line (start 2.5 -2.5) (end -2.5 -2.5) (layer Dwgs.User) (width 0.1))";
  "  (fp_line (start -2.5 -2.5) (end -2.5 2.5) (layer Dwgs.User) (width 0.1))"].
Definition cy_file_3 : list string := [
  "  (fp_circle (center -2.6 -2.6) (end -2.467417 -2.467417) (layer F.SilkS) (width 0.1875))";
  "  (fp_line (start -3.25 3.25) (end 3.25 3.25) (layer F.SilkS) (width 0.1))";
  "  (fp_line (start 3.25 3.25) (end 3.25 -3.25) (layer F.SilkS) (width 0.1))";
  "  (fp_line (start 3.25 -3.25) (end -3.25 -3.25) (layer F.SilkS) (width 0.1))";
  "  (fp_line (start -3.25 -3.25) (end -3.25 3.25) (layer F.SilkS) (width 0.1))";
  "  (fp_poly (pts (xy 0.2 -0.9) (xy 0.2 -0.2) (xy 0.9 -0.2) (xy 0.9 -0.9)";
  "    (xy 0.2 -0.9)) (layer F.Paste) (width 0))";
  "  (fp_poly (pts (xy 0.2 0.2) (xy 0.2 0.9) (xy 0.9 0.9) (xy 0.9 0.2)";
  "    (xy 0.2 0.2)) (layer F.Paste) (width 0))";
  "  (fp_poly (pts (xy -0.9 -0.9) (xy -0.9 -0.2) (xy -0.2 -0.2) (xy -0.2 -0.9)";
  "    (xy -0.9 -0.9)) (layer F.Paste) (width 0))";
  "  (fp_poly (pts (xy -0.9 0.2) (xy -0.9 0.9) (xy -0.2 0.9) (xy -0.2 0.2)";
  "    (xy -0.9 0.2)) (layer F.Paste) (width 0))";
  "  (pad 1 smd rect (at -2.5 -1.75 180) (size 0.9 0.29) (layers F.Cu F.Mask))";
  "  (pad 2 smd rect (at -2.5 -1.25 180) (size 0.9 0.29) (layers F.Cu F.Mask))";
  "  (pad 3 smd rect (at -2.5 -0.75 180) (size 0.9 0.29) (layers F.Cu F.Mask))";
  "  (pad 4 smd rect (at -2.5 -0.25 180) (size 0.9 0.29) (layers F.Cu F.Mask))";
  "  (pad 5 smd rect (at -2.5 0.25 180) (size 0.9 0.29) (layers F.Cu F.Mask))";
  "  (pad 6 smd rect (at -2.5 0.75 180) (size 0.9 0.29) (layers F.Cu F.Mask))";
  "  (pad 7 smd rect (at -2.5 1.25 180) (size 0.9 0.29) (layers F.Cu F.Mask))";
  "  (pad 8 smd rect (at -2.5 1.75 180) (size 0.9 0.29) (layers F.Cu F.Mask))";
  "  (pad 9 smd rect (at -1.75 2.5 90) (size 0.9 0.29) (layers F.Cu F.Mask))";
  "  (pad 10 smd rect (at -1.25 2.5 90) (size 0.9 0.29) (layers F.Cu F.Mask))";
  "  (pad 11 smd rect (at -0.75 2.5 90) (size 0.9 0.29) (layers F.Cu F.Mask))";
  "  (pad 12 smd rect (at -0.25 2.5 90) (size 0.9 0.29) (layers F.Cu F.Mask))"].
Definition cy_file_4 : list string := [
  "  (pad 13 smd rect (at 0.25 2.5 90) (size 0.9 0.29) (layers F.Cu F.Mask))";
  "  (pad 14 smd rect (at 0.75 2.5 90) (size 0.9 0.29) (layers F.Cu F.Mask))";
  "  (pad 15 smd rect (at 1.25 2.5 90) (size 0.9 0.29) (layers F.Cu F.Mask))";
  "  (pad 16 smd rect (at 1.75 2.5 90) (size 0.9 0.29) (layers F.Cu F.Mask))";
  "  (pad 17 smd rect (at 2.5 1.75) (size 0.9 0.29) (layers F.Cu F.Mask))";
  "  (pad 18 smd rect (at 2.5 1.25) (size 0.9 0.29) (layers F.Cu F.Mask))";
  "  (pad 19 smd rect (at 2.5 0.75) (size 0.9 0.29) (layers F.Cu F.Mask))";
  "  (pad 20 smd rect (at 2.5 0.25) (size 0.9 0.29) (layers F.Cu F.Mask))";
  "  (pad 21 smd rect (at 2.5 -0.25) (size 0.9 0.29) (layers F.Cu F.Mask))";
  "  (pad 22 smd rect (at 2.5 -0.75) (size 0.9 0.29) (layers F.Cu F.Mask))";
  "  (pad 23 smd rect (at 2.5 -1.25) (size 0.9 0.29) (layers F.Cu F.Mask))";
  "  (pad 24 smd rect (at 2.5 -1.75) (size 0.9 0.29) (layers F.Cu F.Mask))";
  "  (pad 25 smd rect (at 1.75 -2.5 270) (size 0.9 0.29) (layers F.Cu F.Mask))";
  "  (pad 26 smd rect (at 1.25 -2.5 270) (size 0.9 0.29) (layers F.Cu F.Mask))";
  "  (pad 27 smd rect (at 0.75 -2.5 270) (size 0.9 0.29) (layers F.Cu F.Mask))";
  "  (pad 28 smd rect (at 0.25 -2.5 270) (size 0.9 0.29) (layers F.Cu F.Mask))";
  "  (pad 29 smd rect (at -0.25 -2.5 270) (size 0.9 0.29) (layers F.Cu F.Mask))";
  "  (pad 30 smd rect (at -0.75 -2.5 270) (size 0.9 0.29) (layers F.Cu F.Mask))";
  "  (pad 31 smd rect (at -1.25 -2.5 270) (size 0.9 0.29) (layers F.Cu F.Mask))";
  "  (pad 32 smd rect (at -1.75 -2.5 270) (size 0.9 0.29) (layers F.Cu F.Mask))";
  "  (pad 0 smd rect (at 0 0) (size 3.1 3.1) (layers F.Cu F.Mask))";
  "  (model ${KISYS3DMOD}/external/kicad-library/modules/packages3d/Housings_DFN_QFN.3dshapes/QFN-32-1EP_5x5mm_Pitch0.5mm.wrl";
  "    (at (xyz 0 0 0))";
  "    (scale (xyz 1 1 1))";
  "    (rotate (xyz 0 0 0))"].
Definition cy_file_5 : list string := [
  "  )";
  ")"].
Definition cy_file : str := text_of (cy_file_0 ++ cy_file_1 ++ cy_file_2 ++ cy_file_3 ++ cy_file_4 ++ cy_file_5).
Example bound_fail_cy : match parse_module cy_file with Ok m => let b := module_bound m in [near (bx1 b) (flit "-2.95"); near (by1 b) (flit "-2.95"); near (bx2 b) (flit "2.95"); near (by2 b) (flit "2.95")] | _ => [] end = [true; true; true; true].
Proof. vm_compute. reflexivity. Qed.
