(** S-expression to footprint (/repo/src/footprint/de.rs). *)
From Coq Require Import String.
From Verif Require Import Base Str Num F64 F64Text Sexp FpData FpLayer.
Open Scope string_scope.

(** de.rs:24-31 *)
Definition de_offset (s : sexp) : res (f64 * f64) :=
  iter_new s (lit "offset")
    (let* x := p_f in let* y := p_f in p_close (x, y)).

(** de.rs:34-42 *)
Definition de_at (s : sexp) : res at_t :=
  iter_new s (lit "at")
    (let* x := p_f in let* y := p_f in let* rot := p_maybe_f in
     p_close (mk_at x y (default fzero rot))).

Definition layer_from_str (s : str) : res layer := of_option ESexp (layer_of_str s).

(** de.rs:44-51 *)
Definition de_layer (s : sexp) : res layer :=
  iter_new s (lit "layer")
    (let* n := p_s in let* l := plift (layer_from_str n) in p_close l).

(** de.rs:62-73; does not check that nothing follows the word *)
Definition de_justify (s : sexp) : res justify :=
  iter_new s (lit "justify")
    (let* w := p_s in
     plift (if str_eqb w (lit "mirror") then Ok JMirror
            else if str_eqb w (lit "left") then Ok JLeft
            else if str_eqb w (lit "right") then Ok JRight
            else Err ESexp)).

(** de.rs:134-142 *)
Definition xy_type_of_str (s : str) : res xy_type :=
  if str_eqb s (lit "xy") then Ok XXy
  else if str_eqb s (lit "start") then Ok XStart
  else if str_eqb s (lit "end") then Ok XEnd
  else if str_eqb s (lit "size") then Ok XSize
  else if str_eqb s (lit "center") then Ok XCenter
  else if str_eqb s (lit "rect_delta") then Ok XRectDelta
  else Err ESexp.

(** de.rs:131-149 *)
Definition de_xy (s : sexp) : res xy :=
  do name <- sx_list_name s;
  do t <- xy_type_of_str name;
  iter_new s name (let* x := p_f in let* y := p_f in p_close (mk_xy x y t)).

(** de.rs:76-92; only the numbers of the size element are kept *)
Definition de_font (s : sexp) : res font :=
  iter_new s (lit "font")
    (let* sz := p_maybe de_xy in
     let* th := p_maybe_in "thickness" sx_f in
     let* it := p_maybe_lit "italic" in
     p_close (mk_font match sz with
                      | Some p => mk_xy (xy_x p) (xy_y p) XXy
                      | None => xy_default
                      end (default fzero th) (is_some it))).

(** de.rs:53-60 *)
Definition de_effects (s : sexp) : res effects :=
  iter_new s (lit "effects")
    (let* f := p_t de_font in let* j := p_maybe de_justify in p_close (mk_effects f j)).

(** de.rs:94-105 *)
Definition de_layers (s : sexp) : res layers :=
  iter_new s (lit "layers")
    (p_vec (fun x => do n <- sx_string x; layer_from_str n)).

(** de.rs:107-129: the element after the name, further elements are ignored *)
Definition second {A} (conv : sexp -> res A) (s : sexp) : res A :=
  do l <- sx_list s;
  match l with
  | _ :: x :: _ => conv x
  | _ => Err ESexp
  end.

(** de.rs:151-157 *)
Definition de_pts (s : sexp) : res pts := iter_new s (lit "pts") (p_vec de_xy).

(** de.rs:160-168 *)
Definition de_xyz (s : sexp) : res xyz :=
  iter_new s (lit "xyz")
    (let* x := p_f in let* y := p_f in let* z := p_f in p_close (mk_xyz x y z)).

(** de.rs:170-180 *)
Definition de_fnet (s : sexp) : res fnet :=
  iter_new s (lit "net")
    (let* n := p_i in let* name := p_s in p_close (mk_fnet n name)).

(** de.rs:182-194 *)
Definition de_drill (s : sexp) : res drill :=
  iter_new s (lit "drill")
    (let* shape := p_maybe_lit "oval" in
     let* w := p_f in
     let* h := p_maybe_f in
     let* off := p_maybe de_offset in
     let '(ox, oy) := default (fzero, fzero) off in
     p_close (mk_drill shape w (default w h) ox oy)).

(** de.rs:11-20 *)
Inductive part :=
| PaThickness (f : f64) | PaNet (n : fnet) | PaPaste (f : f64) | PaMask (f : f64)
| PaClearance (f : f64) | PaThermalGap (f : f64) | PaZoneConnect (z : Z).

Definition rmap {A B} (f : A -> B) (r : res A) : res B := do a <- r; Ok (f a).

(** de.rs:196-210 *)
Definition de_part (s : sexp) : res part :=
  do name <- sx_list_name s;
  if str_eqb name (lit "thickness") then rmap PaThickness (second sx_f s)
  else if str_eqb name (lit "net") then rmap PaNet (de_fnet s)
  else if str_eqb name (lit "solder_paste_margin") then rmap PaPaste (second sx_f s)
  else if str_eqb name (lit "solder_mask_margin") then rmap PaMask (second sx_f s)
  else if str_eqb name (lit "clearance") then rmap PaClearance (second sx_f s)
  else if str_eqb name (lit "thermal_gap") then rmap PaThermalGap (second sx_f s)
  else if str_eqb name (lit "zone_connect") then rmap PaZoneConnect (second sx_i s)
  else Err ESexp.

(** de.rs:213-233 *)
Definition de_text (s : sexp) : res fp_text :=
  iter_new s (lit "fp_text")
    (let* name := p_s in
     let* value := p_s in
     let* a := p_maybe de_at in
     let* l := p_maybe de_layer in
     let* h := p_maybe_lit "hide" in
     let* e := p_maybe de_effects in
     p_close (mk_text name value (default at_default a) (default layer_default l)
                      (default effects_default e) (is_some h))).

(** data.rs:796-805 *)
Definition pad_type_of_str (s : str) : res pad_type :=
  if str_eqb s (lit "smd") then Ok Smd
  else if str_eqb s (lit "thru_hole") then Ok Pth
  else if str_eqb s (lit "np_thru_hole") then Ok NpPth
  else Err ESexp.
(** data.rs:821-831 *)
Definition pad_shape_of_str (s : str) : res pad_shape :=
  if str_eqb s (lit "rect") then Ok Rect
  else if str_eqb s (lit "circle") then Ok Circle
  else if str_eqb s (lit "oval") then Ok Oval
  else if str_eqb s (lit "trapezoid") then Ok Trapezoid
  else Err ESexp.

(** The assignments of de.rs:263-271 for one part. *)
Definition pad_part (p : pad) (x : part) : res pad :=
  let '(mk_pad n t sh sz rd a la net zc dr pm mm cl tg) := p in
  match x with
  | PaNet v => Ok (mk_pad n t sh sz rd a la (Some v) zc dr pm mm cl tg)
  | PaPaste v => Ok (mk_pad n t sh sz rd a la net zc dr (Some v) mm cl tg)
  | PaMask v => Ok (mk_pad n t sh sz rd a la net zc dr pm (Some v) cl tg)
  | PaClearance v => Ok (mk_pad n t sh sz rd a la net zc dr pm mm (Some v) tg)
  | PaThermalGap v => Ok (mk_pad n t sh sz rd a la net zc dr pm mm cl (Some v))
  | PaZoneConnect v => Ok (mk_pad n t sh sz rd a la net (Some v) dr pm mm cl tg)
  | PaThickness _ => Err ESexp
  end.

Fixpoint pad_parts (p : pad) (l : list part) : res pad :=
  match l with
  | [] => Ok p
  | x :: r => do p' <- pad_part p x; pad_parts p' r
  end.

(** de.rs:236-275 *)
Definition de_pad (s : sexp) : res pad :=
  iter_new s (lit "pad")
    (let* name := p_s in
     let* ts := p_s in
     let* t := plift (pad_type_of_str ts) in
     let* ss := p_s in
     let* sh := plift (pad_shape_of_str ss) in
     let* a := p_maybe de_at in
     let* p := p_maybe de_xy in
     let size := match p with
                 | Some q => if xy_type_eqb (xy_t q) XSize then q else xy_empty XSize
                 | None => xy_empty XSize
                 end in
     let rd := match p with
               | Some q => if xy_type_eqb (xy_t q) XSize then None
                           else if xy_type_eqb (xy_t q) XRectDelta then Some q else None
               | None => None
               end in
     let* dr := p_maybe de_drill in
     let* la := p_maybe de_layers in
     let* parts := p_vec de_part in
     plift (pad_parts
              (mk_pad name t sh size rd (default at_default a) (default [] la) None None dr
                      None None None None) parts)).

(** de.rs:278-293 *)
Definition de_poly (s : sexp) : res fp_poly :=
  iter_new s (lit "fp_poly")
    (let* p := p_maybe de_pts in
     let* l := p_maybe de_layer in
     let* w := p_maybe_in "width" sx_f in
     p_close (mk_poly (default [] p) (default fzero w) (default layer_default l))).

(** A point kept only when it has the wanted type, otherwise the default
    (de.rs:300-309 and the like). *)
Definition keep_xy (t : xy_type) (o : option xy) : xy :=
  match o with
  | Some p => if xy_type_eqb (xy_t p) t then p else xy_empty t
  | None => xy_empty t
  end.

(** de.rs:296-318 *)
Definition de_line (s : sexp) : res fp_line :=
  iter_new s (lit "fp_line")
    (let* a := p_maybe de_xy in
     let* b := p_maybe de_xy in
     let* l := p_maybe de_layer in
     let* w := p_maybe_in "width" sx_f in
     p_close (mk_line (keep_xy XStart a) (keep_xy XEnd b) (default layer_default l)
                      (default fzero w))).

(** de.rs:321-343 *)
Definition de_circle (s : sexp) : res fp_circle :=
  iter_new s (lit "fp_circle")
    (let* a := p_maybe de_xy in
     let* b := p_maybe de_xy in
     let* l := p_maybe de_layer in
     let* w := p_maybe_in "width" sx_f in
     p_close (mk_circle (keep_xy XCenter a) (keep_xy XEnd b) (default layer_default l)
                        (default fzero w))).

(** de.rs:346-371 *)
Definition de_arc (s : sexp) : res fp_arc :=
  iter_new s (lit "fp_arc")
    (let* a := p_maybe de_xy in
     let* b := p_maybe de_xy in
     let* an := p_maybe_in "angle" sx_f in
     let* l := p_maybe de_layer in
     let* w := p_maybe_in "width" sx_f in
     p_close (mk_arc (keep_xy XStart a) (keep_xy XEnd b) (default fzero an)
                     (default layer_default l) (default fzero w))).

(** de.rs:374-385 *)
Definition de_model (s : sexp) : res model :=
  iter_new s (lit "model")
    (let* n := p_s in
     let* a := p_in_list "at" de_xyz in
     let* sc := p_in_list "scale" de_xyz in
     let* r := p_in_list "rotate" de_xyz in
     p_close (mk_model n a sc r)).

(** de.rs:387-405: the first value after the name, further ones are ignored *)
Definition first_after {A} (p : P A) (s : sexp) : res A :=
  do name <- sx_list_name s; iter_new s name p.
Definition de_string_element : sexp -> res str := first_after p_s.
Definition de_float_element : sexp -> res f64 := first_after p_f.
Definition de_stamp_element : sexp -> res Z :=
  first_after (let* w := p_s in plift (of_option ESexp (parse_int 16 w))).

(** de.rs:407-440 *)
Definition de_element (s : sexp) : res element :=
  match s with
  | SStr w => if str_eqb w (lit "locked") then Ok ELocked else Err ESexp
  | SList _ =>
      do name <- sx_list_name s;
      if str_eqb name (lit "solder_mask_margin") then rmap ESolderMaskMargin (de_float_element s)
      else if str_eqb name (lit "layer") then rmap ELayer (de_layer s)
      else if str_eqb name (lit "descr") then rmap EDescr (de_string_element s)
      else if str_eqb name (lit "tags") then rmap ETags (de_string_element s)
      else if str_eqb name (lit "attr") then rmap EAttr (de_string_element s)
      else if str_eqb name (lit "fp_text") then rmap EFpText (de_text s)
      else if str_eqb name (lit "pad") then rmap EPad (de_pad s)
      else if str_eqb name (lit "fp_poly") then rmap EFpPoly (de_poly s)
      else if str_eqb name (lit "fp_line") then rmap EFpLine (de_line s)
      else if str_eqb name (lit "fp_circle") then rmap EFpCircle (de_circle s)
      else if str_eqb name (lit "fp_arc") then rmap EFpArc (de_arc s)
      else if str_eqb name (lit "tedit") then rmap ETEdit (de_stamp_element s)
      else if str_eqb name (lit "tstamp") then rmap ETStamp (de_stamp_element s)
      else if str_eqb name (lit "path") then rmap EPath (de_string_element s)
      else if str_eqb name (lit "at") then rmap EAt (de_at s)
      else if str_eqb name (lit "model") then rmap EModel (de_model s)
      else if str_eqb name (lit "clearance") then rmap EClearance (de_float_element s)
      else Err ESexp
  | SEmpty => Panic
  end.

(** de.rs:442-453 *)
Definition de_module (s : sexp) : res module :=
  iter_new s (lit "module")
    (let* name := p_s in let* es := p_vec de_element in pret (mk_module name es)).
