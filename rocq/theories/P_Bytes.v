(** Property theorems: the bytes of a file (C107). *)
From Coq Require Import String.
From Verif Require Import Base Str StrFacts FpData FpDe FpExamples LyData LyExamples Formatter FormatterSpec DocText SchData SymData
  KicadFile SpellSpec FileErr Disk TornSpec Bytes BytesSpec BytesFacts P_Formatter.
From Verif Require P_Err P_Torn P_Schematic P_Join.
Open Scope string_scope. Open Scope N_scope. Open Scope list_scope.

(** ** C107 *)
(** The bytes that are taken for a text are those that spell it in UTF-8, with no other
    spelling than the shortest and no surrogates. *)
Theorem C107_text : forall b s, bytes_text b = Some s <-> utf8 s b.
Proof. exact text_iff. Qed.
Print Assumptions C107_text.
Theorem C107_bytes : forall s b, utf8 s b <-> Forall scalar s /\ text_bytes s = b.
Proof. exact bytes_iff. Qed.
Print Assumptions C107_bytes.
(** So no bytes are two texts. *)
Theorem C107_one : forall s t b, utf8 s b -> utf8 t b -> s = t.
Proof. exact utf8_fun. Qed.
Print Assumptions C107_one.
(** A cut between two characters leaves two texts, a cut inside one leaves none. *)
Theorem C107_cut : forall s p q, utf8 s (p ++ q) -> (exists u w, s = u ++ w /\ utf8 u p /\ utf8 w q) \/ (no_text p /\ no_text q).
Proof. exact cut_iff. Qed.
Print Assumptions C107_cut.
(** Bytes that are no text are refused whatever is asked for, and a file of ASCII is its own text. *)
Theorem C107_refused : forall d n x, (forall b, d n = Some b -> no_text b) -> read_kicad_file (seen d) n x = Err EIo.
Proof. exact refused. Qed.
Print Assumptions C107_refused.
Theorem C107_ascii : forall b, Forall (fun c => c < 128) b -> utf8 b b.
Proof. exact ascii_same. Qed.
Print Assumptions C107_ascii.
(** A single byte of another coding is enough. *)
Theorem C107_latin : forall x c y, 128 <= c -> Forall (fun b => b < 128) x -> match y with [] => True | b :: _ => b < 128 end -> no_text (x ++ c :: y).
Proof. exact lone_byte. Qed.
Print Assumptions C107_latin.
(** A file that begins with a byte order mark is of no kind, whatever follows. *)
Theorem C107_mark : forall d n b t x, d n = Some (239 :: 187 :: 191 :: b) -> utf8 t b -> read_kicad_file (seen d) n x = refusal n x.
Proof. exact mark_file. Qed.
Print Assumptions C107_mark.
(** Footprints, boards and tables without their last bytes *)
Theorem C107_loss : forall d n x p q f, tree_kind f -> read_kicad_file (seen (store d n (p ++ q))) n x = Ok f -> after_loss n x p q f (read_kicad_file (seen (store d n p)) n x).
Proof. exact loss. Qed.
Print Assumptions C107_loss.
(** Libraries and schematics without their last bytes *)
Theorem C107_library : forall d n p q x y l l', read_kicad_file (seen (store d n (p ++ q))) n x = Ok (KSymbolLib l) -> read_kicad_file (seen (store d n p)) n y = Ok (KSymbolLib l') -> first_of l' l.
Proof. exact lost_library. Qed.
Print Assumptions C107_library.
Theorem C107_schematic : forall d n p q x y c c', read_kicad_file (seen (store d n (p ++ q))) n x = Ok (KSchematic c) -> read_kicad_file (seen (store d n p)) n y = Ok (KSchematic c') ->
  schematic_left c' c.
Proof. exact lost_schematic. Qed.
Print Assumptions C107_schematic.
(** A save that stops at any byte *)
Theorem C107_save : forall d a n t d' r, Forall scalar t -> try_store d a n t = (d', r) -> only_file n d d' /\ store_ends d d' n t r.
Proof. exact store_end. Qed.
Print Assumptions C107_save.
Theorem C107_complete : forall d n t d' r, store_ends d d' n t r -> only_file n d d' -> exists a f, try_store d a n t = (f, r) /\ forall k, f k = d' k.
Proof. exact store_any. Qed.
Print Assumptions C107_complete.
Theorem C107_module : forall nq d a m n d' r, Forall scalar (module_to_string nq m 0) -> parse_module (module_to_string nq m 0) = Ok m -> try_store_module nq d a m n = (d', r) ->
  opens_as read_module d d' n m /\ (r = TFine tt -> read_module (seen d') n = Ok m).
Proof. exact stored_module. Qed.
Print Assumptions C107_module.
Theorem C107_layout : forall nq d a l n d' r, Forall scalar (layout_to_string nq l 0) -> parse_layout (layout_to_string nq l 0) = Ok l -> try_store_layout nq d a l n = (d', r) ->
  opens_as read_layout d d' n l /\ (r = TFine tt -> read_layout (seen d') n = Ok l).
Proof. exact stored_layout. Qed.
Print Assumptions C107_layout.

(** One character of each length: A, µ, Ω (the Ohm sign) and a character above the first plane *)
Example C107_text_ex : bytes_text [65; 194; 181; 226; 132; 166; 240; 159; 148; 140] = Some [65; 181; 8486; 128268] /\ text_bytes [65; 181; 8486; 128268] = [65; 194; 181; 226; 132; 166; 240; 159; 148; 140].
Proof. vm_compute. split; reflexivity. Qed.
(** The ends of the ranges *)
Example C107_ends_ex : map (fun c => bytes_text (char_bytes c)) [127; 128; 2047; 2048; 55295; 57344; 65535; 65536; 1114111] = map (fun c => Some [c]) [127; 128; 2047; 2048; 55295; 57344; 65535; 65536; 1114111].
Proof. vm_compute. reflexivity. Qed.
(** A longer spelling, a surrogate, a number too great, a byte that comes too early and one too few *)
Example C107_bytes_ex : map bytes_text [[192; 128]; [193; 191]; [224; 159; 191]; [240; 143; 191; 191]; [237; 160; 128]; [244; 144; 128; 128]; [128]; [226; 132]; [255]] = [None; None; None; None; None; None; None; None; None].
Proof. vm_compute. reflexivity. Qed.
(** A footprint with a µ in its name and a newline after it: cut inside the µ, after it, before the newline *)
Definition micro : str := lit "(module " ++ [181] ++ lit "H)" ++ [10].
Definition micro_disk (k : nat) : disk := store (fun _ => None) (lit "a") (firstn k (text_bytes micro)).
Definition name_at (k : nat) : res str := match read_module (seen (micro_disk k)) (lit "a") with Ok m => Ok (m_name m) | Err e => Err e | Panic => Panic end.
Example C107_loss_ex : length (text_bytes micro) = 13%nat /\ map name_at [13; 12; 11; 10; 9; 8]%nat = [Ok [181; 72]; Ok [181; 72]; Err ESexp; Err ESexp; Err EIo; Err ESexp].
Proof. vm_compute. split; reflexivity. Qed.
Example C107_cut_ex : utf8 [181; 72] ([194] ++ [181; 72]) /\ no_text [194] /\ no_text [181; 72].
Proof.
  split; [apply C107_text; vm_compute; reflexivity|]. destruct (C107_cut [181; 72] [194] [181; 72]) as [(u & w & _ & U & _)|H]; [apply C107_text; vm_compute; reflexivity| |exact H].
  exfalso. apply C107_text in U. vm_compute in U. discriminate U.
Qed.
(** A µ as it stands in a file of another coding *)
Definition latin_disk : disk := store (fun _ => None) (lit "a") (lit "(module 1" ++ 181 :: lit "H)").
Example C107_latin_ex : read_kicad_file (seen latin_disk) (lit "a") XAny = Err EIo /\ read_module (seen latin_disk) (lit "a") = Err EIo.
Proof.
  assert (N : forall b, latin_disk (lit "a") = Some b -> no_text b).
  { intros b. unfold latin_disk. rewrite stored. intros [= <-]. apply (C107_latin (lit "(module 1") 181 (lit "H)")); [discriminate| |reflexivity]. repeat (apply Forall_cons; [reflexivity|]). apply Forall_nil. }
  split; [exact (C107_refused _ _ XAny N)|]. unfold read_module. now rewrite (C107_refused _ _ XModule N).
Qed.
Definition mark_disk : disk := store (fun _ => None) (lit "a") (239 :: 187 :: 191 :: text_bytes (lit "(module R)")).
Example C107_mark_ex : read_module (seen mark_disk) (lit "a") = Err ESexp /\ read_kicad_file (seen mark_disk) (lit "a") XAny = Ok (KUnknown (lit "a")).
Proof. vm_compute. split; reflexivity. Qed.
(** Saving a footprint named µH, with the disk full after 9 and after 10 bytes *)
Definition micro_m : module := mk_module ([181] ++ lit "H") [].
Definition micro_left (a : answer) : res str * bool :=
  let (d, r) := try_store_module quote_special (fun _ => None) a micro_m (lit "a") in
  (match read_module (seen d) (lit "a") with Ok m => Ok (m_name m) | Err e => Err e | Panic => Panic end, match r with TFine _ => true | _ => false end).
Example C107_save_ex : map micro_left [Refuses (lit "no"); Breaks 9 (lit "full"); Breaks 10 (lit "full"); Stores] = [(Err EIo, false); (Err EIo, false); (Err ESexp, false); (Ok [181; 72], true)].
Proof. vm_compute. reflexivity. Qed.
(** A library of two symbols, cut after the first one, and a schematic cut inside its last line *)
Definition count_at (t : str) (k : nat) : res nat :=
  match read_symbol_lib (seen (store (fun _ => None) (lit "a") (firstn k (text_bytes t)))) (lit "a") with Ok l => Ok (length l) | Err e => Err e | Panic => Panic end.
Definition part_lib : str := P_Err.text_of (P_Err.lib_top ++ P_Err.a_def ++ ["DRAW"; "ENDDRAW"; "ENDDEF"; "#"]).
Example C107_library_ex : map (count_at P_Torn.lib_2) [length P_Torn.lib_2; length part_lib] = [Ok 2%nat; Ok 1%nat].
Proof. vm_compute. reflexivity. Qed.
Definition els_at (t : str) (k : nat) : res (list selement) :=
  match read_schematic (seen (store (fun _ => None) (lit "a") (firstn k (text_bytes t)))) (lit "a") with Ok c => Ok (sc_elements c) | Err e => Err e | Panic => Panic end.
Definition part_sch : str := P_Err.text_of (P_Err.sch_head ++ ["Wire Wire Line"]) ++ lit " 1 2 3 4".
Example C107_schematic_ex : map (els_at P_Torn.wire_text) [length P_Torn.wire_text; length part_sch] =
  [Ok [SWire (mk_wire WWire 1 2 3 45); SNoConnect (mk_spoint 7 8)]; Ok [SWire (mk_wire WWire 1 2 3 4)]].
Proof. vm_compute. reflexivity. Qed.
