# Formal model of kicad-parse-gen: design

Model and proofs in Rocq/Coq 8.16.1 under `rocq/theories`, logical root `Verif`.
The code in `/repo` is read as text, never built.  Every model definition cites
the file and lines it mirrors and says where it simplifies.

Layers of the development:

* **model files** (`FpSer.v`, `SchParse.v`, ...): total functions, no proofs;
* **specification files** (`*Spec.v`, `*Wf.v`): the small notions theorems are
  stated with, written without the functions they judge;
* **lemma files** (`*Facts.v`, `*Reread.v`, `*Total.v`, ...);
* **property files** `P_*.v`: only property theorems (closed by an `exact`),
  concrete `Example`s meeting their hypotheses, and `Print Assumptions`.

A theorem named `..._refuted` shows that the plain reading of a property is
false of the code, by a witness or for a whole class of inputs.  No theorem is
named `_partial` at present: where the plain property fails, the exact domain
on which it holds is proved next to the refutation.

## 1. Conventions

| Rust | Model |
|---|---|
| `char`, `String`, `&str` | `N` (Unicode scalar value), `list N` (`str`); literals `lit "..."`. Byte positions matter only in `&v[0][1..]`, `&s[1..]`, `s[5..]`, which slice behind ASCII characters. |
| `i64` | `Z`; being in range (`i64_ok`) is part of the well-formedness predicates. Wrapping (`as u64`, `{:X}`) is written out. Arithmetic overflow is `Panic` (debug build); the release build, which wraps, is modelled beside it in `SchWrap.v` (C115). |
| `f64` | Flocq `BinarySingleNaN.binary_float 53 1024`, round to nearest even. One NaN; its payload and sign are not modelled. |
| `Result`, panic | `res A := Ok a \| Err e \| Panic`. Error texts are dropped, but kept in `Said.v`, `SchErr.v`, `SymErr.v`, `FileErr.v`. Slicing/indexing out of range, `unwrap` of `None` and `unreachable!` are `Panic`. |
| `&mut self` | functions returning the new value. |
| `loop`, `while` | structural recursion, or fuel with the separate result `Err EFuel`; theorems show that the given fuel suffices (`C41_*_total`) or state the exact condition (`C32_*`). |
| closures | Coq functions. |
| file system | a function from path to content (`files`), or the pair `fs_join`/`fs_read` for sub-sheets. Writing always succeeds. |
| `HashMap` result | its lookup function. |

### Numbers as text
`f64_of_str` mirrors `f64::from_str` (sign, `inf`/`infinity`/`nan` in any case,
digits with optional point and exponent) with correct rounding; `f64_to_str`
mirrors `Display` (shortest digits that read back, the nearer ones, the larger ones in a tie as in Dragon4 of `core::num::flt2dec`; no exponent).  Both are
executable.  That reading undoes writing is proved (C43), not assumed.

### S-expressions
The crate `symbolic_expressions` 5.0 is a dependency and not in the sandbox.
`Sexp.v` models the part of its interface the code uses (constructors,
`IterAtom`, `*_in_list`, `maybe_*`, `close`); `Formatter.v` models the call
sequence of its serializer and its reader.  Which atoms are quoted is a
parameter `nq` of every text theorem, with the contract `quote_contract` ("an
atom left unquoted is non-empty and free of white space, parentheses and
quotes").  The reader knows no escapes inside quotes, which is not how the
crate behaves: `tests/layout1.rs` shows that a quote after a backslash does
not end a word.  `Escape.v` has readers with any meaning of a backslash, and C109
proves that all of them agree with `read_sexp` on texts without a backslash
between quotes, in particular on what is saved from texts without backslashes;
theorems about `read_sexp` are about the crate for such texts.  `()` reads as
the empty list.

`RepoTests.v` to `RepoTests4.v` run the tests of the repository on the model,
with the rule that a word is quoted if it is empty or has a blank, parenthesis,
quote or opening brace.  The model gives the same texts as the files of the tests
but for the final newline and the blank line before the last parenthesis of
`layout2`, which the test allows for.  `tests/layout1.rs` (120 kB) is too long to be
checked again with the rest; run apart, with the reader `keep_pair` of `Escape.v`, it
gives the 122,576 characters of the file but for the blank line before the first zone,
the one difference that the test allows.

## 2. Files

| File | Content |
|---|---|
| `Base.v` | result type `res`, `do`-notation, list helpers |
| `Str.v` | std string operations used by the crate (split, lines, trim, replace, padding, white space) |
| `Num.v` | integer `Display`/`FromStr`, hexadecimal stamps (std, footprint/ser.rs, de.rs) |
| `F64.v`, `F64Text.v` | f64 arithmetic and comparison; text codec (std) |
| `Bound.v` | `Bound` (src/lib.rs:247-333) |
| `Sexp.v` | tree type and `IterAtom` of symbolic_expressions |
| `FpData.v`, `FpLayer.v`, `FpSer.v`, `FpDe.v` | footprint types, layer names, writer and reader (src/footprint/{data,mod,ser,de}.rs) |
| `FpOps.v`, `FpCheck.v` | footprint operations, rule checks and fixes (src/footprint/data.rs) |
| `LyData.v`, `LySer.v`, `LyDe.v`, `LyOps.v` | layout types, writer, reader, operations (src/layout/*) |
| `FpLibTable.v` | src/fp_lib_table.rs |
| `Formatter.v`, `DocText.v` | src/formatter.rs, text level of symbolic_expressions; `*_to_string` and `parse` of the three S-expression formats |
| `LibFns.v` | quote-aware splitter, `reference_ord` (src/lib.rs), src/project.rs |
| `SchData.v`, `SchPrint.v`, `SchParse.v`, `SchOps.v`, `Paths.v` | src/schematic.rs |
| `SymData.v`, `SymPrint.v`, `SymParse.v`, `SymOps.v`, `SymCheck.v` | src/symbol_lib.rs |
| `CheckFix.v` | src/checkfix.rs |
| `FpNew.v` | constructors and setters of footprint parts (src/footprint/data.rs) |
| `SchOut.v` | the lines the schematic reader prints while it reads, and all that a program prints |
| `Said.v`, `SchErr.v`, `SymErr.v`, `FileErr.v` | the schematic reader, the symbol library reader and the opening of files, with the texts of the errors |
| `Disk.v` | writing files when the system may refuse |
| `WalkErr.v` | operations that fail, with the texts of the errors |
| `TreeErr.v` | the readers of footprints and boards, with the texts of their errors |
| `Bytes.v` | UTF-8 as util.rs uses it, disks of bytes and saves that stop at any byte |
| `Escape.v` | readers of trees for which a backslash between quotes has a meaning |
| `LyLog.v` | log records of the board reader, the programs and the footprint fix |
| `BoxLog.v` | debug records of bounding boxes |
| `SchWrap.v` | integer arithmetic of schematics in a build without overflow checks |
| `RepoTests.v`, `RepoTests2.v`, `RepoTests3.v`, `RepoTests4.v` | the tests of the repository run on the model (examples, no proofs) |
| `Expand.v` | the URI of a footprint library with variables filled in; the shellexpand crate is assumed to work as documented |
| `Bins.v` | the programs under src/bin, as functions from files and arguments to output and log |
| `KicadFile.v` | `read_kicad_file`, `read_*`, `write_*` (src/lib.rs:82-237), src/util.rs |
| `BoundSpec.v`, `FpWf.v`, `FpOpsSpec.v`, `LyWf.v`, `LySpec.v`, `LibSpec.v`, `FormatterSpec.v`, `DocSpec.v`, `SchWf.v`, `SchSpec.v`, `SymWf.v`, `SymSpec.v`, `CheckSpec.v`, `KfSpec.v`, `SxSpec.v`, `SaveSpec.v`, `NameSpec.v`, `ClassSpec.v`, `TightSpec.v`, `FlipSpec.v`, `KeepSpec.v`, `EqSpec.v`, `BinSpec.v`, `DecSpec.v`, `ShortSpec.v`, `TextSpec.v`, `GramSpec.v`, `MeanSpec.v`, `CutSpec.v`, `SchReadSpec.v`, `SymReadSpec.v`, `PathSpec.v`, `WideSpec.v`, `SpellSpec.v`, `KindSpec.v`, `WalkSpec.v`, `DiffSpec.v`, `LineSpec.v`, `AlgSpec.v`, `BareSpec.v`, `OutSpec.v`, `ExpandSpec.v`, `RunSpec.v`, `TurnSpec.v`, `ErrSpec.v`, `FileErrSpec.v`, `TornSpec.v`, `DiskSpec.v`, `WalkErrSpec.v`, `CopySpec.v`, `EolSpec.v`, `ConnSpec.v`, `JoinSpec.v`, `BlameSpec.v`, `TreeErrSpec.v`, `BytesSpec.v`, `CharSpec.v`, `CharLineSpec.v`, `EscapeSpec.v`, `MovedSpec.v`, `SymOrderSpec.v`, `PasteSpec.v`, `FieldOrderSpec.v`, `LogSpec.v`, `WrapSpec.v`, `ShiftSpec.v`, `PlaceSpec.v`, `AnyOrderSpec.v`, `BoxLogSpec.v`, `SchMixSpec.v`, `BlindSpec.v`, `UnionSpec.v`, `ExtentSpec.v`, `RedrawSpec.v`, `DeepSpec.v`, `ResaveSpec.v`, `ResaveLySpec.v`, `AutoSpec.v`, `RuleSpec.v`, `StaySpec.v`, `KeptSpec.v`, `SavedSpec.v`, `PlainSpec.v`, `CrashSpec.v` | specification notions |
| `StrFacts.v`, `NumFacts.v`, `F64Facts.v`, `F64Order.v`, `F64Grid.v`, `SexpFacts.v` | lemmas about the base layer |
| `BoundFacts.v`, `BoxFacts.v`, `FpFacts.v`, `FpOpsFacts.v`, `FpEqFacts.v`, `FpOpsWit.v`, `FpExamples.v` | footprint lemmas, witnesses, examples |
| `LyFacts.v`, `LyReread.v`, `LyOpsFacts.v`, `LyNetFacts.v`, `LyBoundFacts.v`, `LyExamples.v` | layout lemmas, examples |
| `LibFacts.v`, `FormatterFacts.v`, `DocFacts.v`, `DocTextFacts.v` | splitter, table, formatter and document text lemmas |
| `SchLine.v`, `SchFacts.v`, `SchEnds.v`, `SchReread.v`, `SchTotal.v`, `SchOpsFacts.v`, `SchBoundFacts.v` | schematic lemmas |
| `SymFacts.v`, `SymReread.v`, `SymTotal.v` | symbol library lemmas |
| `RefFacts.v` | the sort key of references (C42) |
| `ShortKeep.v` | numbers that keep their texts (C81) |
| `SchExact.v`, `SymExact.v` | what survives saving is well formed (C82) |
| `StayFacts.v`, `StayFp.v`, `StayLy.v`, `StayText.v` | documents kept by opening and saving (C80) |
| `CheckFacts.v`, `FixFacts.v`, `ReportFacts.v`, `CourtFacts.v`, `RuleFacts.v`, `RuleFix.v`, `KlcFacts.v`, `CheckWit.v` | lemmas and witnesses about checks and fixes |
| `NoPanic.v`, `SxTotal.v`, `KfFacts.v`, `KfTotal.v` | crash freedom of the S-expression readers, file kinds |
| `SxText.v`, `SaveFacts.v`, `NameFacts.v`, `ClassFacts.v`, `TightFacts.v` | lemmas about texts read from files, saving, net names, net classes and box sizes, minimality of boxes |
| `FlipFacts.v`, `KeepFacts.v`, `KeepEdits.v`, `EqFacts.v`, `BinFacts.v`, `ExactFacts.v`, `ExactLy.v`, `SettleFacts.v`, `SettleText.v`, `SettleSch.v`, `SettleSym.v`, `DecFacts.v`, `ShortFacts.v`, `SchTight.v`, `TextFacts.v`, `TextMain.v`, `TextDocs.v`, `CircleFacts.v`, `GramFacts.v`, `GramRead.v`, `GramWit.v`, `MeanFacts.v`, `MeanBoard.v`, `MeanWit.v`, `CutFacts.v`, `SchReadFacts.v`, `SymReadFacts.v`, `PathFacts.v`, `WideSound.v`, `WideMean.v`, `WideBoard.v`, `WideCrash.v`, `SpellFacts.v`, `SpellKind.v`, `KindSx.v`, `KindText.v`, `KindFacts.v`, `WalkFacts.v`, `WalkFind.v`, `DiffTree.v`, `DiffFacts.v`, `DiffMove.v`, `DiffHole.v`, `DiffMain.v`, `LineFacts.v`, `NewSymFacts.v`, `AlgBoard.v`, `AlgMove.v`, `AlgSch.v`, `BareFacts.v`, `OutFacts.v`, `OutSaved.v`, `OutRun.v`, `ExpandFacts.v`, `RunFacts.v`, `TurnFacts.v`, `ErrErase.v`, `ErrFacts.v`, `ErrLines.v`, `ErrSch.v`, `ErrSym.v`, `ErrWhole.v`, `FileErrFacts.v`, `TornFacts.v`, `TornLines.v`, `TornSch.v`, `DiskFacts.v`, `WalkErrFacts.v`, `CopyFacts.v`, `EolFacts.v`, `ConnFacts.v`, `JoinFacts.v`, `BlameFacts.v`, `BlameLib.v`, `TreeErrAgree.v`, `TreeErrFacts.v`, `TreeErrTells.v`, `TreeErrBoard.v`, `TreeErrWhole.v`, `BytesFacts.v`, `CharFacts.v`, `CharLines.v`, `EscapeFacts.v`, `MovedFacts.v`, `SymOrderFacts.v`, `PasteFacts.v`, `FieldOrderFacts.v`, `LogFacts.v`, `WrapFacts.v`, `ShiftFacts.v`, `ShiftRun.v`, `PlaceFacts.v`, `AnyOrderFacts.v`, `BoxLogFacts.v`, `SchMixFacts.v`, `BlindFacts.v`, `UnionFacts.v`, `ExtentFacts.v`, `RedrawFacts.v`, `AnyCourt.v`, `DeepFacts.v`, `TwinFacts.v`, `ResaveFacts.v`, `ResaveLy.v`, `ResaveBin.v`, `AutoFacts.v`, `WriteFacts.v`, `SavedFacts.v`, `SavedDocs.v`, `PlainFacts.v`, `CrashFacts.v`, `SymCrashFacts.v` | lemmas about flipping, edits that keep documents saveable, equality, programs, exact saving conditions, settling, text layout, circles, the grammar and the meaning of documents, cutting lines and the text readers |
| `P_Num.v`, `P_Bound.v`, `P_Footprint.v`, `P_FpOps.v`, `P_Layout.v`, `P_LyOps.v`, `P_Lib.v`, `P_Formatter.v`, `P_Schematic.v`, `P_SchOps.v`, `P_Symbol.v`, `P_Check.v`, `P_File.v`, `P_Save.v`, `P_Name.v`, `P_Class.v`, `P_Tight.v`, `P_Flip.v`, `P_Keep.v`, `P_Eq.v`, `P_Bins.v`, `P_Exact.v`, `P_Settle.v`, `P_Dec.v`, `P_Text.v`, `P_Gram.v`, `P_Mean.v`, `P_Read.v`, `P_Path.v`, `P_Saved.v`, `P_Crash.v`, `P_Wide.v`, `P_Spell.v`, `P_Kind.v`, `P_Walk.v`, `P_Diff.v`, `P_Line.v`, `P_Alg.v`, `P_Bare.v`, `P_Out.v`, `P_Expand.v`, `P_Run.v`, `P_Turn.v`, `P_Err.v`, `P_Torn.v`, `P_Says.v`, `P_Copy.v`, `P_Eol.v`, `P_Conn.v`, `P_Join.v`, `P_Blame.v`, `P_Tell.v`, `P_Bytes.v`, `P_Char.v`, `P_Escape.v`, `P_Moved.v`, `P_SymOrder.v`, `P_Paste.v`, `P_FieldOrder.v`, `P_Log.v`, `P_Wrap.v`, `P_Shift.v`, `P_Place.v`, `P_AnyOrder.v`, `P_BoxLog.v`, `P_SchMix.v`, `P_Blind.v`, `P_Union.v`, `P_Extent.v`, `P_Redraw.v`, `P_Twins.v`, `P_Resave.v`, `P_Auto.v`, `P_Rule.v`, `P_Stay.v`, `P_Kept.v`, `P_Survive.v` | property theorems |

## 3. Properties: what is modelled and how it is proved

**C01 A footprint written out reads back as the same footprint** (proved; `P_Footprint.v`). `de_module (ser_module m) = Ok m` for every module satisfying the boolean `module_ok`, which lists the representable values per element kind (e.g. stamps not negative, layer names without further dots, drills as in C04, no rect_delta). One lemma per type (`FpFacts.rt_*`), lists by induction.

**C02 Re-reading a footprint that was read is stable** (proved; `P_Footprint.v`). If `de_module t = Ok m` and `module_clean m` (the read values that cannot be written back), then writing and reading `m` gives `m`. Reading establishes `module_ok` up to `module_clean`, then C01.

**C03 A pad with a trapezoid delta survives save and load** (proved; `P_Footprint.v`). Refuted for every pad with a rect_delta: the reader rejects the written text; a second theorem gives a text that reads, but whose saved form does not.

**C04 Drill sizes survive save and load** (proved; `P_Footprint.v`). `C04_drill_exact` computes what reading gives for every drill; the round trip holds on `drill_ok`; witnesses outside.

**C05 Layer names round trip** (proved; `P_Footprint.v`). A layer round trips iff its side/type satisfy a stated condition; text stability for names with at most one dot; refuted for two.

**C06 Edit and tag stamps round trip** (proved; `P_Num.v`). `i64_of_hex (show_hex64 z) = z` for 0 <= z < 2^63; refuted for all negative stamps.

**C07 A board layout written out reads back as the same layout** (proved; `P_Layout.v`). As C01/C02 for the twelve layout element kinds, set-up, net classes, zones and plot parameters (`layout_ok`, `layout_clean`); witnesses for the excluded values.

**C08 A footprint library table round trips** (proved; `P_Lib.v`). Round trip without exclusions on trees; exact shape of the document; extra entries of a library line are dropped (refuted part).

**C09 A schematic written as text reads back as the same schematic** (proved; `P_Schematic.v`). `parse_schematic fn (print_schematic s) = Ok s` for `sch_ok s`: lines are split off (`SchEnds`), each line kind is read back (`SchLine`, `SchFacts`), lists by induction over the parse position. Re-read: whatever is read and `sch_clean` is stable. Refuted for a default schematic, a new sheet, unnamed fields, values with quotes.

**C10 A symbol library written as text reads back as the same library** (proved; `P_Symbol.v`). As C09 for symbol libraries (`symbol_lib_ok`); the writer may panic, so the statement includes that it does not. Refuted: bold fields, new symbols, one-field symbols, dropped $FPLIST and DEF field, pin names with blanks, field names.

**C11 The quote-aware splitter recovers quoted values** (proved; `P_Lib.v`, `P_Read.v`). The splitter on a line built from words and quoted texts returns exactly them (any number of blanks between); with a count, the rest of the line is the last part. Induction with the state generalised. Texts holding a quote are refuted. `line_words`, `ws_words`, `text_lines` (CutSpec.v) say independently what the words and lines are; the splitter is shown equivalent to them by following its state (`reached`).

**C12 Pretty printing never changes the document** (proved; `P_Formatter.v`). The indented and the compact text of a tree read as the same tree, for every quoting rule meeting the contract; with C01/C07/C08: text round trips of the three formats. Induction over trees with a token-level invariant.

**C13 Indentation returns to where it started** (proved; `P_Formatter.v`). The formatter state after a list equals the state before it if all lists start with a non-empty atom; the nesting depth of every emitted line is exact; documents of the three formats satisfy the condition; refuted without it.

**C14 Merging bounds gives the smallest enclosing bound** (proved; `P_Bound.v`). Merge is the least upper bound for containment; unit, commutative, associative, order of merging irrelevant (up to float equality); `swap_if_needed` makes the corners ordered.

**C15 The bounding box of a layout contains every drawn element** (proved; `P_Layout.v`). Every point of every drawn element lies in the box of the layout (finite coordinates, via sizes not negative); modules: their own boxes lie in it.

**C16 The bounding box of a footprint contains every fabrication element** (proved; `P_Bound.v`). Refuted (lines drawn right to left fall outside). For elements whose corner points ascend every point lies in the box; for one element the condition is exact.

**C17 The bounding box of a schematic component is around its position** (proved; `P_SchOps.v`). Refuted (box built from y, y, x, y). Exact: position inside iff y <= x; the exact points of component and sheet boxes up to 2^53; schematic boxes cover upright components and all sheets and are the least such boxes; overflow of the sums is exactly the aborting case.

**C18 Moving a layout moves exactly the coordinates** (proved; `P_FpOps.v`, `P_LyOps.v`). `adjust` as a relation on views: coordinates of the listed kinds are shifted by the f64 sum, all else is equal; views determine the element, so nothing is left out; shifting by 0 keeps values up to -0.

**C19 Flipping twice restores the element** (proved; `P_FpOps.v`). Flip twice is the identity on exact angles and on texts without left/right justification; refuted outside; flipping changes the side.

**C20 Rotation angles stay within one turn** (proved; `P_FpOps.v`). Result in [0,360]; [0,360) is refuted; exact sum modulo 360 on multiples of 2^-43 (grid lemmas `F64Grid`); rotating back restores.

**C21 Setting a footprint's reference changes only the reference** (proved; `P_FpOps.v`). Exact effect of `set_reference` on the element list, lookups before and after, undo; `get_text`/`modify_text` first match.

**C22 Renaming a net renames it everywhere and nothing else** (proved; `P_LyOps.v`). Renaming as a relation on net-name views of all element kinds; the old name is gone, other names and everything else are kept; views are complete.

**C23 Updating net names is all or nothing** (proved; `P_LyOps.v`). All-or-nothing is refuted; exact outcome: names before the failing one are updated, the rest is kept.

**C24 Looking up and modifying a module by reference affects the first match only** (proved; `P_LyOps.v`). First module with the reference is returned/modified, the others are untouched; error if there is none.

**C25 Unnamed-net helpers are consistent** (proved; `P_LyOps.v`). `is_unnamed_net` iff the name has the form built by the writer of such names, for parts without `-()`; refuted with them; `set_unnamed_net` replaces exactly that name.

**C26 Setup values: reading gives what was last written** (proved; `P_LyOps.v`). Get after update, other names unaffected, present/absent cases, any sequence of updates: the last one counts.

**C27 Adding or updating a component field behaves like a map** (proved; `P_SchOps.v`). Lookup after `add_or_update_field`, frame, reported outcome, definedness; the map view takes the last field of a name; refuted: it can disagree with lookup, and a saved file can lose the name.

**C28 A newly added field gets a fresh number** (proved; `P_SchOps.v`). The number of a new field is larger than all others; definedness (overflow panics); exact new field; refuted: first free number.

**C29 Field numbers stay distinct over any history of edits** (proved; `P_SchOps.v`). Over any list of edits the numbers stay distinct and the last write of a name is what is read.

**C30 Updating one field leaves the others alone** (proved; `P_SchOps.v`). Refuted (other fields are hidden; all fields of that name change); exact effect through complete views; the plain claim under the conditions where it holds.

**C31 Modifying a component of a schematic touches only that component** (proved; `P_SchOps.v`). First match only for `modify_component`, all for `modify_components`; the listed components change accordingly. The sheet count: frame and overflow.

**C32 Collecting all components traverses the sheet tree exactly once** (proved; `P_SchOps.v`). The sheet tree as an inductive relation on the file system; the result is the pre-order list whenever the tree exists; bound on the steps, termination iff acyclic; cycles and missing files.

**C33 Component lookup finds a component wherever it is** (proved; `P_SchOps.v`). Finds a component iff it is in the readable tree, first in pre-order; sound without conditions; refuted with unreadable sheets or cycles.

**C34 Fixing a footprint converges** (proved; `P_Check.v`). `fp_fix` never fails, is idempotent, and the findings remaining are exactly those no fix repairs.

**C35 Fixing a footprint preserves the electrical data** (proved; `P_Check.v`). Exact frame of the changed and added elements; refuted: the first user text is overwritten, added lines are on the front.

**C36 Name check reports exactly the disallowed characters** (proved; `P_Check.v`). Reported items are exactly the disallowed characters with their positions; accepted iff all characters are in the documented set.

**C37 Symbol pin checks enforce the documented grid** (proved; `P_Check.v`). Exact set of findings per pin, exact silence conditions of pins and symbols, no false alarm; the documented 100/50 mil grids are refuted.

**C38 Flattening and logging check results lose nothing** (proved; `P_Check.v`, `P_Rule.v`). The list of findings is kept by `flatter` and `dump`; nested single results are unwrapped one level only (refuted part). `dump_lines`: the log equals the list of findings with their depth, each shown by `finding_line`. Section texts: `klc_range`, `klc_inj`, `section_show` by cases.

**C39 File kind detection is sound and ordered** (proved; `P_File.v`). The result kind is the first reader in order that accepts; sound, exclusive, `read_*` iff; unknown iff none accepts (and none aborts).

**C40 A saved file is recognised as what it is** (proved; `P_File.v`). Write then read gives the value back with the right kind for each expected kind that does not stop earlier; other files keep their content.

**C41 Readers never crash** (proved; `P_Schematic.v`, `P_Symbol.v`). Concrete texts on which the schematic and symbol readers abort; a condition on the text (`calm`) under which they do not; the loop bound always suffices.

**C42 Reference ordering is a consistent sort key** (proved; `P_Lib.v`). Defined iff not empty; the value as first letter and number of the digits before a comma; order laws; refuted: prefixes of several letters, suffixes, overflow.

**C43 Numbers written to files read back exactly** (proved; `P_Num.v`). `f64_of_str (f64_to_str x)` is `x` for every non-NaN `x` (and NaN for NaN), injectivity; i64 likewise over the whole range.

**C44 Equality of footprint parts is an equivalence** (proved; `P_Eq.v`, `P_FpOps.v`). Reflexive (exactly without NaN), symmetric, transitive; equal values are not interchangeable (refuted part: attributes the equality ignores). Exact characterisation: equality of the values with the ignored parts erased (`forget_*`, EqSpec), zeros unsigned, no NaN.

**C45 Filtered element views return exactly the matching elements in order** (proved; `P_FpOps.v`, `P_LyOps.v`, `P_SchOps.v`, `P_Symbol.v`). Views as the inductive relation `picks`/`Forall`-style characterisation: exactly the matching elements in order.

**C46 Symbols are found and renamed exactly** (proved; `P_Read.v`, `P_Symbol.v`). First symbol satisfying the predicate; exact effect of `set_name`; aborts iff the name is empty or fewer than two fields.

**C47 A fixed footprint can be saved and read back** (proved; `P_Check.v`). A fixed footprint of a representable footprint is representable and reads back.

**C48 The generated courtyard encloses the footprint** (proved; `P_Check.v`, `P_Tight.v`). Four closed lines are added; they enclose every fabrication point of ascending elements, with rounding errors bounded through the reals; refuted for right-to-left lines. The margin (`C48_courtyard_margin`) is computed within 2^-10 for sizes away from the limit of 2 mm.

**C49 The footprint check reports exactly the rule violations** (proved; `P_Check.v`). The findings of `fp_check` are exactly the violations of an inductive list of rules.

**C50 The S-expression readers never abort** (proved; `P_File.v`). No S-expression reader aborts on any text, or on any tree without the empty expression; aborts of `read_kicad_file` are exactly those of the two line readers; refuted for trees with the empty expression and for `read_layout` on a truncated schematic.

**C51 Renaming a block in hierarchical net names** (proved; `P_Name.v`). `replace_block` is `str::replace` of `/from/` by `/to/`; the specification splits at slashes and renames inner parts. Refuted for equal neighbours and for undoing when the new name was in use.

**C52 Net classes compared without their nets** (proved; `P_Class.v`). The derived comparison is modelled field by field (`net_class_eqb` on copies without nets); the specification compares real values. Reflexivity refuted for NaN.

**C54 Width and height of a box** (proved; `P_Class.v`). Exact by the rounding theory of `F64Order` (`rnd` is round to nearest even on reals, from Flocq).

**C55 Looking up data in a footprint** (proved; `P_Class.v`). Relation `first_match` (first element of a list that yields a value), proved unique; the model functions meet it.

**C56 Opening, saving and opening again** (proved; `P_Save.v`). Composition of the reader postconditions (`SxText`: no quote in any text read), the formatter round trip (C12) and the tree round trip (C01, C07, C08). Refuted without `clean`.

**C58 Boxes are not larger than needed** (proved; `P_Tight.v`). Least upper bound property of `bound_update` lifted over folds; pads and circles by rounding error bounds of 2^-11 per operation (the root by its relative error). The via box is shown to reach the full size in each direction, hence twice the via (refuted: half the size).

**C53 The command line programs report what the library says** (proved; `P_Bins.v`). The programs are functions from a file map and an argument list to a result holding the standard output and the log. `identify` through C39/C40 (`accepted`), dumps through C56 and C18, rule programs through C34-C38.

**C59 Flipping and rotating change exactly what they should** (proved; `P_Flip.v`). Views of an element (points, angles, layers, justification, rest) that together determine it; flip and rotate as relations on the views, by cases on the element kind. Arcs: refuted on the real-number meaning of an arc.

**C60 Edited documents survive saving** (proved; `P_Keep.v`). Invariant `*_saves` (representable and free of quotes, resp. `sch_ok`): established by reading, kept by every edit of the inductive edit relations (KeepEdits), sufficient for reading back (C12, C01, C07, C09). Induction over the edit sequence.

**C61 Documents built from nothing survive saving** (proved; `P_Keep.v`). Same invariant, established by the constructors and the default layout.

**C62 Exactly which footprints, layouts and library tables survive saving** (proved; `P_Exact.v`). For each part the value that is written alike and can be read (`tidy_*`): reading what was written gives the tidy value, so equality forces the conditions. Layouts: each written part adds at most one element, so by counting every part gives its own element. Texts: strings read from a file hold no quote.

**C63 Saving settles after one time** (proved; `P_Exact.v`). A read document meets all conditions except the `clean` ones; its tidy value is written alike and is representable, so it is what the second reading gives.

**C57 A decimal text in a file means the nearest binary64 number** (proved; `P_Dec.v`, `P_Gram.v`). `DecSpec` gives the real value of a decimal text (`number_text`) and the correctly rounded result (`reads`, with Flocq `round`). The reader scales by powers of ten exactly or divides with a sticky bit; odd rounding with enough spare bits followed by rounding to nearest gives the nearest number. The grammar is matched in both directions. Hexadecimal texts likewise (`C57_hex`).

**C64 Numbers are written with the fewest digits** (proved; `P_Dec.v`). For n digits the two neighbours of the exact value bound every decimal with n digits (`between`), and rounding is monotone, so if any n-digit decimal reads back one of the neighbours does. Seventeen digits always do: the nearer neighbour is within 1/(2 * 10^16) of the value, less than the gaps of binary64 allow. Nearest and larger is a total order (`closer`), so the value is determined, and with C81_unique the text (`shown_exact`).

**C65 Saving a schematic or symbol library settles after two times, not after one** (proved; `P_Settle.v`). The first reading leaves only texts without quotes and line ends (`component_pre`, `symbol_pre`, ...). Their written lines hold no quotes, so splitting them gives plain words (`split_all_plain`), and what is read from such lines meets the conditions of the round trip. The counterexamples: a quoted name with a blank; lines ending in n + 1 carriage returns, of which each save drops one.

**C66 Saved footprints, boards and library tables are laid out by a fixed table of line breaks** (proved; `P_Text.v`). `written` (TextSpec.v) has no state. An invariant ties the formatter's stack, point counter and two flags to the names of the open lists and earlier siblings; induction over the tree gives `pretty_written`. All trees written for footprints and tables are regular; for boards under `usual_layout` (about preserved unknown elements).

**C67 Saved footprints, boards and library tables follow a fixed grammar** (proved; `P_Gram.v`). `GramSpec` defines a small grammar language (`follows`) and the grammar of the three kinds of documents over a record of word classes; each writer is shown to follow it (GramFacts.v), with the word class of numbers from C64.

**C68 Every document that follows the grammar can be opened** (proved; `P_Gram.v`). The same grammar with the word classes of the reader. A reader is a sequence of steps; for each step that tries an optional part the next possible parts are shown to be refused by it (`stops`, GramRead.v), so nothing is swallowed or left over. Optional parts may be missing (`may`), loose parts come in any order (`loose`).

**C69 Every document that follows the grammar is read as what it means** (proved; `P_Mean.v`). Specification MeanSpec.v: a tree is interpreted by looking up parts by name (`field`, `last_field`, `has`), with the defaults written out. For each kind of part the reader's steps are replayed on every shape the grammar allows (MeanFacts.v, MeanBoard.v); the loops over pad parts, net classes, settings, zones and boards are folds whose result is shown field by field to be a lookup. Witness for the order in MeanWit.v.

**C70 Exactly the well-formed schematic texts are read, with exactly the meaning of their sections** (proved; `P_Read.v`). Specification SchReadSpec.v: a relation between lists of lines and schematics, built from the cutting relations of CutSpec.v; the meaning of a component, sheet or text is taken by name or by the last line of a kind (`last_of`). Each reader is shown equivalent to its relation (SchReadFacts.v); the loops are folds over the parts found, and the main loop never runs out of steps because no section is empty. The number and float texts accepted are those of C57.

**C71 Exactly the well-formed symbol library texts are read, with exactly the meaning of their lines** (proved; `P_Read.v`). Same with SymReadSpec.v and SymReadFacts.v.

**C72 The file of a sheet is found beside its schematic** (proved; `P_Path.v`). `Path::parent` and `Path::join` are modelled on texts (Paths.v, from the documented behaviour of std::path::Components); `leads` (PathSpec.v) says independently where a path leads. Parent drops the last step, joining appends the steps.

**C73 What a saved schematic looks like** (proved; `P_Saved.v`). Spec `SavedSpec.v`: a document is a list of line forms, a line a list of word forms (predicates on texts) separated by one blank; numerals are specified by digits, value and absence of leading zeros, letters and names by the tables the reading spec (C70) uses. Each form is shown to fix its text, so the theorem is an equivalence.

**C74 What a saved symbol library looks like** (proved; `P_Saved.v`). As C73; the panic condition is the index of the second field.

**C75 Exactly when the text readers abort, and when they refuse** (proved; `P_Crash.v`). Spec `CrashSpec.v` on top of the acceptance relations of C70/C71: an abort is a correct beginning followed by one of a few shapes of rest. Both directions by induction over the reader's loops; an unfinished section is one that some further lines would complete, and the proof constructs these lines.

**C76 Exactly which trees are footprints, boards and library tables, and what each of them is read as** (proved; `P_Wide.v`). Spec `WideSpec.v`: a second, wider instance of the grammar of GramSpec.v and a meaning by name and place. Soundness (`WideSound.v`) goes through the reader combinators one by one: whatever a reader returns, its input followed the grammar. Completeness and meaning (`WideMean.v`, `WideBoard.v`) enumerate the shapes a grammar rule allows and compute the reader on each; the peeking `maybe` readers are resolved by showing that they refuse the first element of whatever may follow. The crash and refusal conditions follow by induction over the element loops. Trees come from the parser of symbolic_expressions, which is a trusted assumption; the parser modelled here never yields an empty element (C50), so the crash concerns trees built by a caller.

**C77 Exactly which texts are documents, and what a file of any kind is read as** (proved; `P_Spell.v`). Spec `SpellSpec.v`: mutually inductive spelling of trees and lists of trees. From spelling to tokens by induction on the spelling; from tokens to spelling through a token-by-token relation and an invariant of the list builder (SpellFacts.v). Kinds: composition of C39, C70, C71, C75 and C76.

**C78 Flipping and rotating lose at most rounding errors** (proved; `P_Turn.v`). Rounding error of one addition below 1024 is at most 2^-44, below 512 at most 2^-45 (Flocq, `error_le_half_ulp`); the branches of the rotation are followed on real values; sequences by induction. Views of C59.

**C79 What the rule checks report and what the fixes make, finding by finding and element by element** (proved; `P_Rule.v`). `RuleSpec.v` gives tables of (condition, finding) and the relation `reported`; each table is matched with a table of tests (`reflects`), and the checks are shown to run exactly those tests. The fix: the specification `fixed_as` determines the result (`fixed_fun`) and the fix satisfies it (`fix_is`), so both directions hold. `C79_settings` gives the settings the programs use as real numbers.

**C80 Exactly which files do not change when they are opened and saved** (proved; `P_Stay.v`). `StaySpec.v` describes trees by forms with one, optional or repeated parts. For each writer `f` and well-formedness test `ok` the lemma `img f ok p` says that the trees of shape `p` are exactly the written values with `ok`; these are composed part by part. With the exact round trip conditions of C62 this gives the tree level, with `read_pretty` and C66 the text level.

**C81 Numbers of at most 15 digits are written as they were read** (proved; `P_Kept.v`). Two decimals of 15 digits differ by more than 10^-15 of their size, two reals rounded to the same normal binary64 number by less than 2^-52 of it (`near_inj`). The shortest text of the number read (C64) has at most 15 digits, so it has the same value; plain texts of equal value are equal (`split_same`: the last digit after the point is not zero).

**C82 Exactly which schematics and symbol libraries survive saving** (proved; `P_Survive.v`). One direction is C09/C10. For the other, the text printed is cut into its lines, and each reader function is inverted on them: if the value read is the value printed, every text in it is a word, every line free of line feeds and of a final carriage return, and every number in range. The lines of strange elements are followed by induction over the list (`exact_elements`, `symbols_exact`). The texts that stay are then those of C73 and C74 for such values.

**C83 Which error is reported when a file cannot be opened** (proved; `P_Kind.v`). A predicate 'every error of this reader is an S-expression error' is shown for every combinator of `Sexp.v` and then reader by reader (KindSx.v); the same with the error Other for the line readers (KindText.v), where running out of fuel is excluded by C41. With C77 this gives the exact conditions. Spec `KindSpec.v`.

**C84 How collecting all components of a hierarchy ends** (proved; `P_Walk.v`). `WalkSpec.v` has no step counter: ending walks are inductive, endless ones coinductive. A run that is out of steps is inverted into one step of the walk plus a run that is out of steps, so a run out of n steps is a chain of n schematics; with fewer than n files one comes twice (pigeonhole). Going from 'out of steps for every bound' to an infinite chain uses excluded middle.

**C85 How looking for a reference in a hierarchy ends** (proved; `P_Walk.v`). Same method for the search, with the relation `fails` for sub-searches that are swallowed (WalkFind.v).

**C86 Renaming touches only the names in the text** (proved; `P_Diff.v`). Trees with marked words (DiffTree.v): the formatter never looks at a word that is not the name of a list, so trees equal up to marked words are laid out with the same pieces. Each document is given such a marked tree, and what the edit does to the data is C22, C23.

**C87 Edits change only their part of the text** (proved; `P_Diff.v`). The same with the numbers of positions, or setup values, marked. For replaced and inserted parts the layout specification of C66 is cut at that part; a footprint inside a board is laid out as alone because no rule for boards has a parent that occurs in footprints.

**C88 Edits of schematics and symbols change only their words** (proved; `P_Line.v`). The printed text is cut into spans marked fixed or variable; two printings with the same fixed spans have the same pieces. Texts of components and symbols are those of the line forms of C73 and C74.

**C89 Which edits of boards commute, absorb or undo each other** (proved; `P_Alg.v`). A board is determined by its header, its elements without net names and the list of names (or its elements without positions and the positions), so equations between edited boards are equations between lists. Rounding: `Bplus_correct` with the sign of the sum, and half an ulp per addition.

**C90 Which edits of schematics and symbols commute, absorb or undo each other** (proved; `P_Alg.v`). Field by field; both sides of each equation are written as one record and compared.

**C91 What a file does not say** (proved; `P_Bare.v`). `BareSpec.v` says how an element with only some parts is written and lists the values that stand for the others, without using the model's defaults. `BareFacts.v` reads all combinations; the constructors and defaults of `FpData.v`, `FpNew.v`, `LyData.v` and `SchData.v` are compared with the reading of the barest element.

**C92 The reader says which lines it skips** (proved; `P_Out.v`). `SchOut.v` follows the reader and collects what `println!` writes. `OutSpec.v` says which lines of the text are reported, using only the grammar of `SchReadSpec.v` and never the reader. `OutFacts.v` shows that the reports are those of the longest beginning that reads; `OutSaved.v` applies this to the printed form of a schematic; `OutRun.v` to the programs.

**C93 What the URI of a footprint library stands for** (proved; `P_Expand.v`). `Expand.v` models the loop of `shellexpand::full` (trusted to be as published). `ExpandSpec.v` is a grammar of URIs with the meaning of its pieces. `ExpandFacts.v` shows that the grammar is unambiguous and total and that the loop computes the meaning.

**C94 All that the programs do** (proved; `P_Run.v`). `RunSpec.v` says what each program logs and prints, in terms of `file_is` (C77), `reported` (C79), `written` (C66), `moved` (C18) and `goes` (C92); `RunFacts.v` proves the model of each program equivalent to it by composing the exact characterisations of its parts.

**C95 What the schematic reader says when it refuses a text** (proved; `P_Err.v`). `SchErr.v` repeats the reader function by function in the result type `said` of `Said.v`, which carries the text of the error (C95_same: without the texts it is the reader of `SchParse.v`). `ErrSpec.v` is a table of demands: per kind of line, a list of propositions about its words, each with the complaint or `None` for a panic; `blamed` picks the first that does not hold. `refused ls m` says where in the text: in the heading, or in a section after readable sections (those of C70), in a component or sheet after readable lines. C95_message, C95_panic and C95_read say that the three outcomes of the reader are exactly these; C95_one and C95_complete that the table is consistent and misses nothing. `ErrLines.v`, `ErrSch.v`: for each line, `agree` walks through reader and demands together; the loops use the exact reading of C70.

**C96 What the symbol library reader says when it refuses a text** (proved; `P_Err.v`). The same for `SymErr.v`, with `lib_refused` in `ErrSpec.v` and the symbols of C71 (`ErrSym.v`, `ErrWhole.v`).

**C97 What the error says when a file is not what was asked for** (proved; `P_Err.v`). `FileErr.v` repeats the six readers of `KicadFile.v` with texts (C97_same). `open_says` in `FileErrSpec.v` uses the meaning of texts `file_is` of C77, the order of trial `turn`, a table of the names of kinds, and `refused` and `lib_refused`. C97_worded links it to the kinds of errors of C83. C97_named_refuted: a project opened as a footprint gets an error about trees.

**C98 A file that was cut short is noticed** (proved; `P_Torn.v`). `torn p t` says that `t` is `p` followed by something that is not white space. C98_tree uses the spelling relation `document` of C77: parentheses do not balance before the end. The written texts are trees by C12. For the line formats the lines of a beginning are lines and possibly part of one (`TornLines.v`), and the grammars of C70 and C71 have unique readings from the front.

**C99 What is left after a save that fails** (proved; `P_Torn.v`). `Disk.v` adds an answer of the system to writing: refused, broken off after any number of characters, or stored. `save_ends` lists the three endings with their texts. The last theorems use C98.

**C100 What the errors of operations say** (proved; `P_Says.v`). `WalkErr.v` repeats the operations with texts (C100_same: without texts they are those of the earlier properties). `sheet_says`, `walk_says` and `search_says` use the relations of C84, C85 and `refused` of C95. `carries` and the form of net names are those of C24 and C25.

**C101 A design works the same in another directory** (proved; `P_Copy.v`). `counterpart` (CopySpec.v) relates paths by where they lead (`leads` of C72). A simulation over the depth: corresponding schematics have corresponding sheet paths (C72 for parent and join), equal texts, and therefore equal contents.

**C102 It does not matter how the lines of a file end** (proved; `P_Eol.v`). `EolSpec` says when two texts are the same but for the ends of lines (inductively, each end of either sort) and that no line ends between an odd quote and the next. `EolFacts`: the lines are equal, by induction on the length with the line grammar of C11; the tokens are equal, by induction on the relation with the state of the reader; projects by their first characters. Everything after that is a function of lines or tokens.

**C103 What a change of net names does to the connections of a board** (proved; `P_Conn.v`). `ConnSpec` lists all places of a board that carry the name of a net, with its number (pads, zones, declarations; net classes without number). `ConnFacts`: the numbers are part of what renaming leaves alone and the names are mapped in order (C22, C23), so the list of places is mapped; the statements about numbers, declarations and connections follow for any function on names, and for renaming by cases on the two names.

**C104 Files can be put together from parts** (proved; `P_Join.v`). `JoinSpec` writes trees as a name and a list of entries, says which value holds after two lists, and when a description stands among lines. `JoinFacts`: the readers of trees map over the entries (for boards each entry is first turned into what it does, which does not depend on what was read before, then folded), so joining and permuting follow for lists; for lines, the first section of a text is unique (C70, C71), so the sections of the whole are those of the parts.

**C105 An error is about the first line that cannot be mended** (proved; `P_Blame.v`). `BlameSpec`: lines that may go on, lines that are lost. `BlameFacts`/`BlameLib` go through the relation of C95/C96 that says what each text is refused for: a demand that a line does not meet is not met whatever follows; where the lines run out, lines that meet the remaining demands are given and the specification of C70/C71 is shown to hold of the result. No complaint about a line is the one about short texts (first letters differ). The first lost beginning is found by induction on the lines. The part on texts put together uses the sections of C104.

**C106 What the program says about a tree that is no footprint or board** (proved; `P_Tell.v`). `TreeErr` gives the readers of `FpDe`/`LyDe` the texts the program makes its errors from; errors of the dependency have no text. `TreeErrAgree` shows step by step that nothing else changes. `TreeErrSpec` says for each kind of tree which parts come first (grammar of C76) and what is said about the first wrong one. `TreeErrFacts` has one lemma per step of a reader: a part that must be there, one that may be there, a row of parts; `TreeErrTells`/`TreeErrBoard` put them together, with the exactness of the grammar from C76. The parts of a pad need a case of their own since a thickness is noticed only when all parts have been read.

**C107 Files are bytes: only UTF-8 is read, and a file cut at any byte is never read as something else** (proved; `P_Bytes.v`). `Bytes.v` models `read_to_string` and `write!` on bytes: the encoder by division, the decoder by the table of byte ranges that the standard library checks. `BytesSpec.v` says the same by the value of the payload bits. `BytesFacts.v` proves that the three agree, that a cut inside a character leaves no text on either side, and carries C98 and C99 over to bytes through `seen`, which makes a disk of bytes into the files of `KicadFile.v`.

**C108 The characters of a saved file** (proved; `P_Char.v`). `CharFacts.v` goes through the writers with a predicate on characters: it holds of the words the program writes of its own and, by assumption, of the texts; then through the formatter, whose own characters are blank, newline, parentheses and quote. Instantiated with 'occurs in one of the texts'. `CharLines.v` does the same for the lines of schematics and symbol libraries.

**C109 What is proved of texts does not depend on how a backslash is read** (proved; `P_Escape.v`). `Escape.v` is the reader of `Formatter.v` with a parameter for the meaning of a backslash pair. On texts without a backslash between quotes (`unescaped`, by the number of quotes before it) the two go through the same states; that saved files are such texts is C108. For texts with backslashes the lexing proof of C12 is repeated for this reader, with the relation `says` between what stands in quotes and what it stands for.

**C110 The order of lines in a schematic matters only within one kind** (proved; `P_Moved.v`). `MovedSpec.v` says what an entry of a component or sheet is (one line, or the two orientation lines) and of which kind, by its first word, and gives the moves: swapping neighbours of different kinds, dropping or adding unknown lines, dropping an entry before a later one of the same kind if only one counts. `differ` says that two texts are the same but for the lines of one component or sheet, which begins where a section begins. By C70 what is read is a function of the parts; each field is the last part of its kind or the parts of its kind in order, and no move changes that.

**C111 The order of lines in a symbol, and symbols as KiCad writes them** (proved; `P_SymOrder.v`). `SymOrderSpec.v` puts the lines of a symbol together from its comment, definition, fields, list of footprints, aliases and drawings. By C71 what is read is a function of these parts, and two symbols that begin the same text are the same, so a symbol with other parts is read as the same definition with the values of those parts. The refusal is the rule for the body of a symbol in the specification of C96.

**C112 A footprint file can be pasted into a board file** (proved; `P_Paste.v`). `PasteSpec.v` says what a gap between the entries of a text is, using the spelling relation of C77 only, and what a board with one more element is. `PasteFacts.v` proves that a spelt list stays spelt when a list is put into a gap, and reads the boards with the folds of C104; saving uses C62.

**C113 The order of the entries within an element is fixed, except where it is free** (proved; `P_FieldOrder.v`). `FieldOrderSpec.v` has the tables of names and says what it means that entries are in the order of a table. `FieldOrderFacts.v` gets the order from the soundness half of C76 (what is read follows the wide grammar), and the free orders from both halves: a permuted tree follows the grammar too, and its meaning takes the last entry of each name.

**C114 What the logger is told** (proved; `P_Log.v`). `LyLog.v` follows the readers and collects the records; the text of a tree is a parameter. `LogSpec.v` says what is kept unread in a board and which entries of a broken board can be read. `LogFacts.v` runs the zone reader and the collector side by side, then the loop over the entries; that other kinds are silent comes from the classes of texts of C39. The fix: the lines of C48.

**C115 What a build without overflow checks does** (proved; `P_Wrap.v`). `SchWrap.v` has the same operations as `SchOps.v` with sums modulo 2^64; `WrapSpec.v` says what a 64 bit machine leaves of an integer without the modulus being computed. `WrapFacts.v`: the machine number is unique, which gives agreement with the checked operations and the exact cases of collision.

**C116 The box of a moved board is the moved box** (proved; `P_Shift.v`). `ShiftSpec.v` states both forms on the sides of the boxes. `ShiftFacts.v`: any relation between coordinates that survives taking the smaller or larger of two goes through `bound_update`, `bound_swap` and all boxes made of points. Adding a finite offset is monotone in the machine, which gives the exact form; being close to the sum survives because minimum and maximum do not enlarge differences, which with the box lemmas of C58 for circles and vias gives the other.

**C117 The rules do not depend on where a footprint lies** (proved; `P_Place.v`). `PlaceFacts.v`: a change of elements that keeps kinds, names, values, layer types, fonts and pad types and commutes with the fix of a text is not seen by any check and commutes with every step of the fix; moving, turning and flipping are such changes. The courtyard uses the box of a moved footprint (C116) and the distance lemma of C48.

**C118 The order of the elements does not matter** (proved; `P_AnyOrder.v`). `AnyOrderFacts.v`: a first match is the head of the list of all matches, which is the same in every order when it has at most one entry; counts and tests for existence are order-free; under uniqueness each fix of a text is a map over the elements; merging boxes is order-free (C14) and putting the corners in order respects equal boxes; `AnyCourt.v`: boxes that differ in the sign of a zero give the same courtyard, because the margin added is not zero; renaming is a map because it never fails.

**C119 What the logger is told about bounding boxes** (proved; `P_BoxLog.v`). `BoxLog.v` collects the records of each box; how Rust prints a number for debugging is a parameter. Lists of records by induction over the elements; the fix changes only texts and attributes before it draws, so the box it logs is that of the footprint it was given.

**C120 The order of drawings, fields, components and sheets does not matter** (proved; `P_SchMix.v`). Other orders are permutations. Lookups are the first hit of a list with one hit; numbers are a maximum; changes are maps when the reference is unique; boxes by the commutativity of joining boxes (C14); components of sheets as a concatenation of what each sheet gives.

**C121 Edits of names move nothing and break no other rule** (proved; `P_Blind.v`). Footprints that differ in nets only are the same once the nets are taken away, which neither the rules nor the boxes see; references by induction over the elements; boxes of schematics depend on the places of components and sheets only.

**C122 The box of a whole is the union of the boxes of its parts** (proved; `P_Union.v`). Every box of an element with finite coordinates is the right way round, so the final swap does nothing and the box is the fold of the union, which is associative and the least upper bound; a fix adds texts, an attribute and lines that the box does not look at.

**C123 Exactly what the box of a schematic is** (proved; `P_Extent.v`). Whole numbers up to 2^53 are floats, and the minimum, maximum and order of such floats are those of the numbers; so the fold over the boxes is a fold over four whole numbers, whose result is characterised as least and greatest elements.

**C124 The rules do not depend on where a symbol is drawn** (proved; `P_Redraw.v`). By cases over the rules, part by part: each rule looks at the name, sizes, visibility and type of a part and at the remainders of the place of a pin only; what kind of symbol it is depends on the reference and the number of pins.

**C125 Files tell documents apart** (proved; `P_Twins.v`). Reading a text gives one document, and by C62 and C82 a document survives saving exactly if it is the one read; the refutations compute the two texts.

**C126 Saving changes neither boxes nor reports nor later edits** (proved; `P_Resave.v`). C63 says what is read the second time: signs of zero rotations, drills and fonts without a positive size may differ. Two footprints whose parts are written the same and agree in place, box and kind stay so through every edit and every step of the fix; boxes and rules look at none of what differs, except the size of fonts. For boards the same relation, part by part, is kept by every edit.

**C127 It does not matter when a document is saved while it is edited** (proved; `P_Auto.v`). Beside the document with saves and the one without goes a third that is read back as it is (C63 gives the first one, C60 keeps it so) and that is written like both of them; the relations of C126 are kept by every edit, and a save replaces the first document by the third.

## 4. Trusted base

* The Coq 8.16.1 kernel (`coqc`; every module is re-checked by `coqchk`), and
  `vm_compute` in witnesses and examples (re-checked by `coqchk` without the VM).
* Axioms: none of our own.  Theorems about f64 values use Flocq, whose proofs
  rest on the real numbers of the standard library, hence on these four
  standard library axioms: `ClassicalDedekindReals.sig_not_dec`,
  `ClassicalDedekindReals.sig_forall_dec`,
  `FunctionalExtensionality.functional_extensionality_dep`,
  `Classical_Prop.classic`.  The table in section 6 says per theorem what
  `Print Assumptions` lists.
* That the model mirrors the code.  This is by reading; the seeded-bug log
  (`seeded/LOG.jsonl`) records which edits of the model the theorems notice.
* The documented behaviour of Rust's standard library: `f64`/`i64` `Display` and
  `FromStr` (including the newer `Display` of negative zero, `-0`), `{:X}`,
  `str::lines`, `split`, `split_whitespace` (Unicode white space as listed in
  `Str.v`), `trim*`, `replace`, `starts_with`, `contains`, width padding, IEEE
  arithmetic, `f64::min`/`max`/`abs`, `Path::parent` and `Path::join` on Unix
  (`Paths.v`).
* `to_lowercase` in the pin check: only the characters `N n C c` have a lower
  case containing `n` or `c` (`SymCheck.contains_nc`).
* The crate `symbolic_expressions` as described in section 1.
* The crate `shellexpand` 1.0 (used by `get_expanded_uri` only) as modelled in `Expand.v` after its
  documentation and published source; it is not in the sandbox.
* The unit counters of the checks (`i64`/`usize` counting elements of a list)
  do not overflow; neither does the `i32` counter numbering sheet labels.

## 5. What is modelled, and what is not

Modelled: all readers, writers, data types and operations of `src/lib.rs`,
`src/util.rs` (as content maps), `src/project.rs`, `src/fp_lib_table.rs`,
`src/formatter.rs`, `src/checkfix.rs`, `src/footprint/*`, `src/layout/*`,
`src/schematic.rs`, `src/symbol_lib.rs` and the programs in `src/bin`, with these exceptions.
Log records are in `LyLog.v`, `BoxLog.v`, `Bins.v` and `CheckFix.v`, lines printed by the schematic reader in `SchOut.v`.

Not modelled:

* texts of errors made by the dependency and of input/output errors (in `WalkErr.v` such an error stands for its text; the texts the program itself gives to errors about trees are in `TreeErr.v`, without the words the dependency may put around them), error conversions (`src/error.rs`);
* file access proper (`util.rs`): missing files are errors, and writing succeeds except in `Disk.v`, where the system may refuse;


## 6. Assumptions per theorem

`R` stands for the four axioms of section 4, `-` for "closed under the global context"; other sets are spelled out.

| Theorem | File | Assumptions |
|---|---|---|
| `C01_footprint_round_trip` | `P_Footprint.v` | R |
| `C02_footprint_reread` | `P_Footprint.v` | R |
| `C03_rect_delta_refuted` | `P_Footprint.v` | R |
| `C03_rect_delta_readable_refuted` | `P_Footprint.v` | R |
| `C04_drill_exact` | `P_Footprint.v` | R |
| `C04_drill_round_trip` | `P_Footprint.v` | R |
| `C04_drill_refuted` | `P_Footprint.v` | R |
| `C05_layer_round_trip` | `P_Footprint.v` | - |
| `C05_layer_text_stable` | `P_Footprint.v` | - |
| `C05_layer_text_refuted` | `P_Footprint.v` | - |
| `C06_stamp_round_trip` | `P_Num.v` | - |
| `C06_negative_stamp_refuted` | `P_Num.v` | - |
| `C07_layout_round_trip` | `P_Layout.v` | R |
| `C07_layout_reread` | `P_Layout.v` | R |
| `C07_domain_refuted` | `P_Layout.v` | R |
| `C07_reread_refuted` | `P_Layout.v` | R |
| `C08_table_roundtrip` | `P_Lib.v` | - |
| `C08_document` | `P_Lib.v` | - |
| `C08_extra_refuted` | `P_Lib.v` | - |
| `C09_schematic_round_trip` | `P_Schematic.v` | R |
| `C09_schematic_reread` | `P_Schematic.v` | R |
| `C09_default_refuted` | `P_Schematic.v` | R |
| `C09_new_sheet_refuted` | `P_Schematic.v` | R |
| `C09_field_name_refuted` | `P_Schematic.v` | R |
| `C09_quote_refuted` | `P_Schematic.v` | R |
| `C10_symbol_round_trip` | `P_Symbol.v` | R |
| `C10_symbol_reread` | `P_Symbol.v` | R |
| `C10_bold_refuted` | `P_Symbol.v` | R |
| `C10_new_symbol_refuted` | `P_Symbol.v` | R |
| `C10_one_field_refuted` | `P_Symbol.v` | R |
| `C10_dropped_refuted` | `P_Symbol.v` | R |
| `C10_pin_name_refuted` | `P_Symbol.v` | R |
| `C10_field_name_refuted` | `P_Symbol.v` | R |
| `C11_one_blank` | `P_Lib.v` | - |
| `C11_words` | `P_Lib.v` | - |
| `C11_blank_line` | `P_Lib.v` | - |
| `C11_count` | `P_Lib.v` | - |
| `C11_count_short` | `P_Lib.v` | - |
| `C11_quote_refuted` | `P_Lib.v` | - |
| `C11_exact` | `P_Read.v` | - |
| `C11_total` | `P_Read.v` | - |
| `C11_count_exact` | `P_Read.v` | - |
| `C11_white` | `P_Read.v` | - |
| `C11_lines` | `P_Read.v` | - |
| `C12_pretty` | `P_Formatter.v` | - |
| `C12_module_text` | `P_Formatter.v` | R |
| `C12_layout_text` | `P_Formatter.v` | R |
| `C12_table_text` | `P_Formatter.v` | - |
| `C13_restored` | `P_Formatter.v` | - |
| `C13_nesting` | `P_Formatter.v` | - |
| `C13_module` | `P_Formatter.v` | R |
| `C13_table` | `P_Formatter.v` | - |
| `C13_layout` | `P_Formatter.v` | R |
| `C13_unnamed_refuted` | `P_Formatter.v` | - |
| `C14_update_lub` | `P_Bound.v` | R |
| `C14_update_neutral` | `P_Bound.v` | - |
| `C14_update_comm` | `P_Bound.v` | R |
| `C14_update_assoc` | `P_Bound.v` | R |
| `C14_merge_order` | `P_Bound.v` | R |
| `C14_merge_covers` | `P_Bound.v` | R |
| `C14_swap` | `P_Bound.v` | R |
| `C15_layout_box` | `P_Layout.v` | R |
| `C15_layout_box_modules` | `P_Layout.v` | R |
| `C16_module_box_refuted` | `P_Bound.v` | R |
| `C16_module_box_ascending` | `P_Bound.v` | R |
| `C16_element_box_exact` | `P_Bound.v` | R |
| `C17_component_box` | `P_SchOps.v` | R |
| `C17_component_box_exact` | `P_SchOps.v` | R |
| `C17_component_box_refuted` | `P_SchOps.v` | R |
| `C17_schematic_box_refuted` | `P_SchOps.v` | R |
| `C17_schematic_box_upright` | `P_SchOps.v` | R |
| `C17_schematic_box_some` | `P_SchOps.v` | R |
| `C17_schematic_box_least` | `P_SchOps.v` | R |
| `C17_sheet_box` | `P_SchOps.v` | R |
| `C17_sheet_box_exact` | `P_SchOps.v` | R |
| `C17_sheet_box_defined` | `P_SchOps.v` | R |
| `C17_component_box_points` | `P_SchOps.v` | R |
| `C18_module_adjust` | `P_FpOps.v` | R |
| `C18_layout_adjust` | `P_LyOps.v` | R |
| `C18_views_complete` | `P_LyOps.v` | - |
| `C18_adjust_zero` | `P_LyOps.v` | R |
| `C19_flip_twice` | `P_FpOps.v` | R |
| `C19_flip_parts` | `P_FpOps.v` | - |
| `C19_flip_rotation_refuted` | `P_FpOps.v` | R |
| `C19_flip_justify_refuted` | `P_FpOps.v` | - |
| `C19_flip_changes_side` | `P_FpOps.v` | R |
| `C20_rotate_range_refuted` | `P_FpOps.v` | R |
| `C20_rotate_range` | `P_FpOps.v` | R |
| `C20_rotate_exact` | `P_FpOps.v` | R |
| `C20_rotate_back` | `P_FpOps.v` | R |
| `C21_set_reference` | `P_FpOps.v` | - |
| `C21_old_gone` | `P_FpOps.v` | - |
| `C21_new_present` | `P_FpOps.v` | - |
| `C21_undo` | `P_FpOps.v` | - |
| `C21_get_reference` | `P_FpOps.v` | - |
| `C21_is_reference` | `P_FpOps.v` | - |
| `C21_get_text` | `P_FpOps.v` | - |
| `C21_modify_text` | `P_FpOps.v` | - |
| `C22_rename` | `P_LyOps.v` | - |
| `C22_old_gone` | `P_LyOps.v` | - |
| `C22_views_complete` | `P_LyOps.v` | - |
| `C23_all_or_nothing_refuted` | `P_LyOps.v` | R |
| `C23_outcome` | `P_LyOps.v` | - |
| `C23_success` | `P_LyOps.v` | - |
| `C23_failure` | `P_LyOps.v` | - |
| `C24_get_module` | `P_LyOps.v` | - |
| `C24_modify_module` | `P_LyOps.v` | - |
| `C25_recognised` | `P_LyOps.v` | - |
| `C25_exact` | `P_LyOps.v` | - |
| `C25_set` | `P_LyOps.v` | - |
| `C25_set_other` | `P_LyOps.v` | - |
| `C25_form_refuted` | `P_LyOps.v` | - |
| `C26_get_update` | `P_LyOps.v` | - |
| `C26_get_other` | `P_LyOps.v` | - |
| `C26_absent` | `P_LyOps.v` | - |
| `C26_present` | `P_LyOps.v` | - |
| `C26_sequence` | `P_LyOps.v` | - |
| `C27_lookup` | `P_SchOps.v` | - |
| `C27_add_or_update` | `P_SchOps.v` | - |
| `C27_outcome` | `P_SchOps.v` | - |
| `C27_defined` | `P_SchOps.v` | - |
| `C27_hash` | `P_SchOps.v` | - |
| `C27_hash_distinct` | `P_SchOps.v` | - |
| `C27_hash_refuted` | `P_SchOps.v` | - |
| `C27_saved_refuted` | `P_SchOps.v` | R |
| `C28_fresh` | `P_SchOps.v` | - |
| `C28_defined` | `P_SchOps.v` | - |
| `C28_new_field` | `P_SchOps.v` | - |
| `C28_first_free_refuted` | `P_SchOps.v` | - |
| `C28_overflow_refuted` | `P_SchOps.v` | - |
| `C29_history` | `P_SchOps.v` | - |
| `C29_last_write` | `P_SchOps.v` | - |
| `C30_exact` | `P_SchOps.v` | - |
| `C30_views_complete` | `P_SchOps.v` | - |
| `C30_other_hidden_refuted` | `P_SchOps.v` | - |
| `C30_all_same_named_refuted` | `P_SchOps.v` | - |
| `C30_only_named` | `P_SchOps.v` | - |
| `C30_rename` | `P_SchOps.v` | - |
| `C31_modify_component` | `P_SchOps.v` | - |
| `C31_modify_components` | `P_SchOps.v` | - |
| `C31_components` | `P_SchOps.v` | - |
| `C31_sheet_count` | `P_SchOps.v` | - |
| `C32_all_components` | `P_SchOps.v` | R |
| `C32_steps` | `P_SchOps.v` | R |
| `C32_terminates` | `P_SchOps.v` | R |
| `C32_cycle_refuted` | `P_SchOps.v` | R |
| `C32_cycle` | `P_SchOps.v` | R |
| `C32_missing` | `P_SchOps.v` | R |
| `C33_by_reference` | `P_SchOps.v` | R |
| `C33_sound` | `P_SchOps.v` | R |
| `C33_own` | `P_SchOps.v` | R |
| `C33_missing_refuted` | `P_SchOps.v` | R |
| `C33_cycle_refuted` | `P_SchOps.v` | R |
| `C34_fix_total` | `P_Check.v` | R |
| `C34_fix_twice` | `P_Check.v` | R |
| `C34_fix_remaining` | `P_Check.v` | R |
| `C35_fix_frame` | `P_Check.v` | R |
| `C35_fix_name` | `P_Check.v` | R |
| `C35_fix_untouched` | `P_Check.v` | R |
| `C35_user_text_refuted` | `P_Check.v` | R |
| `C35_side_refuted` | `P_Check.v` | R |
| `C36_reports` | `P_Check.v` | - |
| `C36_positions` | `P_Check.v` | - |
| `C36_accepts` | `P_Check.v` | - |
| `C37_pin_reports` | `P_Check.v` | - |
| `C37_pin_silent` | `P_Check.v` | - |
| `C37_symbol_silent` | `P_Check.v` | R |
| `C37_no_false_alarm` | `P_Check.v` | - |
| `C37_grid_refuted` | `P_Check.v` | - |
| `C38_flatter_keeps` | `P_Check.v` | - |
| `C38_flatter_unwraps` | `P_Check.v` | - |
| `C38_flatter_others` | `P_Check.v` | - |
| `C38_dump` | `P_Check.v` | - |
| `C38_dump_lines` | `P_Check.v` | - |
| `C38_sections` | `P_Check.v` | - |
| `C38_sections_differ` | `P_Check.v` | - |
| `C38_section_names` | `P_Rule.v` | - |
| `C38_flatter_item_refuted` | `P_Check.v` | - |
| `C39_kind` | `P_File.v` | R |
| `C39_sound` | `P_File.v` | R |
| `C39_exclusive` | `P_File.v` | R |
| `C39_unknown` | `P_File.v` | R |
| `C39_read_module` | `P_File.v` | R |
| `C39_read_schematic` | `P_File.v` | R |
| `C39_read_layout` | `P_File.v` | R |
| `C39_read_symbol_lib` | `P_File.v` | R |
| `C39_read_project` | `P_File.v` | R |
| `C39_read_table` | `P_File.v` | R |
| `C40_module` | `P_File.v` | R |
| `C40_layout` | `P_File.v` | R |
| `C40_table` | `P_File.v` | R |
| `C40_schematic` | `P_File.v` | R |
| `C40_symbol_lib` | `P_File.v` | R |
| `C40_project` | `P_File.v` | R |
| `C40_others` | `P_File.v` | R |
| `C41_schematic_refuted` | `P_Schematic.v` | R |
| `C41_schematic_calm` | `P_Schematic.v` | R |
| `C41_schematic_total` | `P_Schematic.v` | R |
| `C41_symbol_refuted` | `P_Symbol.v` | R |
| `C41_symbol_calm` | `P_Symbol.v` | R |
| `C41_symbol_total` | `P_Symbol.v` | R |
| `C42_total` | `P_Lib.v` | - |
| `C42_exact` | `P_Lib.v` | - |
| `C42_value` | `P_Lib.v` | - |
| `C42_order` | `P_Lib.v` | - |
| `C42_list` | `P_Lib.v` | - |
| `C42_defined_refuted` | `P_Lib.v` | - |
| `C42_prefix_refuted` | `P_Lib.v` | - |
| `C42_suffix_refuted` | `P_Lib.v` | - |
| `C42_overflow_refuted` | `P_Lib.v` | - |
| `C43_float_text_exact` | `P_Num.v` | R |
| `C43_float_text_injective` | `P_Num.v` | R |
| `C43_int_text_exact` | `P_Num.v` | - |
| `C43_int_text_range` | `P_Num.v` | - |
| `C44_layer_equivalence` | `P_FpOps.v` | - |
| `C44_pad_equivalence` | `P_FpOps.v` | R |
| `C44_text_equivalence` | `P_FpOps.v` | R |
| `C44_layer_refuted` | `P_FpOps.v` | - |
| `C44_pad_refuted` | `P_FpOps.v` | R |
| `C44_text_refuted` | `P_FpOps.v` | - |
| `C44_layer_exact` | `P_Eq.v` | - |
| `C44_pad_exact` | `P_Eq.v` | R |
| `C44_text_exact` | `P_Eq.v` | R |
| `C45_pads` | `P_FpOps.v` | - |
| `C45_fp_lines` | `P_FpOps.v` | - |
| `C45_layout_views` | `P_LyOps.v` | - |
| `C45_add` | `P_LyOps.v` | - |
| `C45_has_net` | `P_LyOps.v` | - |
| `C45_pins` | `P_Symbol.v` | - |
| `C45_components` | `P_SchOps.v` | - |
| `C46_find` | `P_Symbol.v` | - |
| `C46_set_name` | `P_Symbol.v` | - |
| `C46_set_name_total` | `P_Symbol.v` | - |
| `C46_set_name_exact` | `P_Symbol.v` | - |
| `C46_set_name_abort` | `P_Symbol.v` | - |
| `C46_basic` | `P_Symbol.v` | - |
| `C46_new` | `P_Read.v` | R |
| `C46_new_refuted` | `P_Symbol.v` | - |
| `C47_fix_saves` | `P_Check.v` | R |
| `C48_courtyard_added` | `P_Check.v` | R |
| `C48_courtyard_encloses` | `P_Check.v` | R |
| `C48_courtyard_margin` | `P_Tight.v` | R |
| `C48_courtyard_refuted` | `P_Check.v` | R |
| `C49_footprint_reports` | `P_Check.v` | R |
| `C50_module` | `P_File.v` | R |
| `C50_layout` | `P_File.v` | R |
| `C50_table` | `P_File.v` | - |
| `C50_module_tree` | `P_File.v` | R |
| `C50_layout_tree` | `P_File.v` | R |
| `C50_table_tree` | `P_File.v` | - |
| `C50_text_tree` | `P_File.v` | - |
| `C50_read_file` | `P_File.v` | R |
| `C50_empty_refuted` | `P_File.v` | R |
| `C50_read_layout_refuted` | `P_File.v` | R |
| `C51_parts` | `P_Name.v` | - |
| `C51_replace` | `P_Name.v` | - |
| `C51_exact` | `P_Name.v` | - |
| `C51_every` | `P_Name.v` | - |
| `C51_untouched` | `P_Name.v` | - |
| `C51_undo` | `P_Name.v` | - |
| `C51_neighbours_refuted` | `P_Name.v` | - |
| `C51_undo_refuted` | `P_Name.v` | - |
| `C52_equal` | `P_Class.v` | R |
| `C52_nets_ignored` | `P_Class.v` | - |
| `C52_symmetric` | `P_Class.v` | R |
| `C52_transitive` | `P_Class.v` | R |
| `C52_reflexive` | `P_Class.v` | R |
| `C52_reflexive_refuted` | `P_Class.v` | R |
| `C54_exact` | `P_Class.v` | R |
| `C54_nonneg` | `P_Class.v` | R |
| `C54_swap` | `P_Class.v` | R |
| `C54_covers` | `P_Class.v` | R |
| `C54_merge` | `P_Class.v` | R |
| `C55_unique` | `P_Class.v` | - |
| `C55_tstamp` | `P_Class.v` | - |
| `C55_tedit` | `P_Class.v` | - |
| `C55_place` | `P_Class.v` | - |
| `C55_side` | `P_Class.v` | - |
| `C55_smd` | `P_Class.v` | - |
| `C56_module` | `P_Save.v` | R |
| `C56_layout` | `P_Save.v` | R |
| `C56_table` | `P_Save.v` | - |
| `C56_open_save_open` | `P_Save.v` | R |
| `C56_no_quotes` | `P_Save.v` | - |
| `C56_lost_refuted` | `P_Save.v` | R |
| `C58_layout_some` | `P_Tight.v` | R |
| `C58_layout_least` | `P_Tight.v` | R |
| `C58_layout_points` | `P_Tight.v` | R |
| `C58_module_least` | `P_Tight.v` | R |
| `C58_pad` | `P_Tight.v` | R |
| `C58_circle` | `P_Tight.v` | R |
| `C58_gr_circle` | `P_Tight.v` | R |
| `C58_text_line` | `P_Tight.v` | R |
| `C58_via` | `P_Tight.v` | R |
| `C58_via_refuted` | `P_Tight.v` | R |
| `C53_identify` | `P_Bins.v` | R |
| `C53_identify_sound` | `P_Bins.v` | R |
| `C53_identify_aborts` | `P_Bins.v` | R |
| `C53_identify_abort_refuted` | `P_Bins.v` | R |
| `C53_dump_footprint` | `P_Bins.v` | R |
| `C53_dump_layout` | `P_Bins.v` | R |
| `C53_dump_layout_aborts` | `P_Bins.v` | R |
| `C53_adjust_layout` | `P_Bins.v` | R |
| `C53_dump_footprint_refuted` | `P_Bins.v` | R |
| `C53_klc_kicad_mod` | `P_Bins.v` | R |
| `C53_klc_symbol_lib` | `P_Bins.v` | R |
| `C53_klc_symbol_silent` | `P_Bins.v` | R |
| `C59_flip` | `P_Flip.v` | R |
| `C59_rotate` | `P_Flip.v` | R |
| `C59_parts` | `P_Flip.v` | - |
| `C59_arc_refuted` | `P_Flip.v` | R |
| `C60_module` | `P_Keep.v` | R |
| `C60_layout` | `P_Keep.v` | R |
| `C60_schematic` | `P_Keep.v` | R |
| `C60_symbol` | `P_Keep.v` | R |
| `C60_quote_refuted` | `P_Keep.v` | R |
| `C60_blank_refuted` | `P_Keep.v` | R |
| `C61_new_module` | `P_Keep.v` | R |
| `C61_default_layout` | `P_Keep.v` | R |
| `C61_text` | `P_Keep.v` | R |
| `C61_text_setters` | `P_Keep.v` | R |
| `C61_pad` | `P_Keep.v` | R |
| `C61_pad_setters` | `P_Keep.v` | R |
| `C61_set` | `P_Keep.v` | - |
| `C62_module_tree` | `P_Exact.v` | R |
| `C62_layout_tree` | `P_Exact.v` | R |
| `C62_module` | `P_Exact.v` | R |
| `C62_layout` | `P_Exact.v` | R |
| `C62_table` | `P_Exact.v` | - |
| `C63_module` | `P_Exact.v` | R |
| `C63_layout` | `P_Exact.v` | R |
| `C57_reads` | `P_Dec.v` | R |
| `C57_accepts` | `P_Dec.v` | R |
| `C57_nearest` | `P_Dec.v` | R |
| `C57_overflow` | `P_Dec.v` | R |
| `C57_int` | `P_Dec.v` | - |
| `C57_hex` | `P_Gram.v` | - |
| `C64_shortest` | `P_Dec.v` | R |
| `C64_plain` | `P_Dec.v` | R |
| `C64_exact` | `P_Dec.v` | R |
| `C65_schematic` | `P_Settle.v` | R |
| `C65_symbol_lib` | `P_Settle.v` | R |
| `C65_schematic_once_refuted` | `P_Settle.v` | R |
| `C65_symbol_once_refuted` | `P_Settle.v` | R |
| `C65_schematic_unbounded_refuted` | `P_Settle.v` | R |
| `C65_symbol_unbounded_refuted` | `P_Settle.v` | R |
| `C66_tree` | `P_Text.v` | - |
| `C66_module` | `P_Text.v` | R |
| `C66_layout` | `P_Text.v` | R |
| `C66_write_module` | `P_Text.v` | R |
| `C66_write_layout` | `P_Text.v` | R |
| `C66_table` | `P_Text.v` | - |
| `C66_other` | `P_Text.v` | - |
| `C66_state_refuted` | `P_Text.v` | R |
| `C67_module` | `P_Gram.v` | R |
| `C67_layout` | `P_Gram.v` | R |
| `C67_table` | `P_Gram.v` | - |
| `C67_opened_refuted` | `P_Gram.v` | R |
| `C68_module` | `P_Gram.v` | R |
| `C68_layout` | `P_Gram.v` | R |
| `C68_table` | `P_Gram.v` | - |
| `C68_saved_refuted` | `P_Gram.v` | R |
| `C69_module` | `P_Mean.v` | R |
| `C69_layout` | `P_Mean.v` | R |
| `C69_table` | `P_Mean.v` | - |
| `C69_order_refuted` | `P_Mean.v` | R |
| `C70_exact` | `P_Read.v` | R |
| `C70_one_meaning` | `P_Read.v` | R |
| `C71_exact` | `P_Read.v` | R |
| `C71_one_meaning` | `P_Read.v` | R |
| `C72_place` | `P_Path.v` | - |
| `C72_none` | `P_Path.v` | - |
| `C72_beside` | `P_Path.v` | - |
| `C72_alone` | `P_Path.v` | - |
| `C72_nested` | `P_Path.v` | R |
| `C73_exact` | `P_Saved.v` | R |
| `C74_exact` | `P_Saved.v` | R |
| `C74_panic` | `P_Saved.v` | R |
| `C75_schematic` | `P_Crash.v` | R |
| `C75_symbol` | `P_Crash.v` | R |
| `C75_schematic_error` | `P_Crash.v` | R |
| `C75_symbol_error` | `P_Crash.v` | R |
| `C76_module` | `P_Wide.v` | R |
| `C76_layout` | `P_Wide.v` | R |
| `C76_table` | `P_Wide.v` | - |
| `C76_layer` | `P_Wide.v` | - |
| `C76_module_crash` | `P_Wide.v` | R |
| `C76_layout_crash` | `P_Wide.v` | R |
| `C76_module_error` | `P_Wide.v` | R |
| `C76_layout_error` | `P_Wide.v` | R |
| `C76_usual_module` | `P_Wide.v` | R |
| `C76_usual_layout` | `P_Wide.v` | R |
| `C77_tree` | `P_Spell.v` | - |
| `C77_one_tree` | `P_Spell.v` | - |
| `C77_module` | `P_Spell.v` | R |
| `C77_layout` | `P_Spell.v` | R |
| `C77_table` | `P_Spell.v` | - |
| `C77_module_error` | `P_Spell.v` | R |
| `C77_layout_error` | `P_Spell.v` | R |
| `C77_table_error` | `P_Spell.v` | - |
| `C77_file` | `P_Spell.v` | R |
| `C77_file_unknown` | `P_Spell.v` | R |
| `C77_file_crash` | `P_Spell.v` | R |
| `C77_file_error` | `P_Spell.v` | R |
| `C77_file_one` | `P_Spell.v` | R |
| `C78_flip_twice` | `P_Turn.v` | R |
| `C78_rotate` | `P_Turn.v` | R |
| `C78_rotations` | `P_Turn.v` | R |
| `C78_there_and_back` | `P_Turn.v` | R |
| `C79_footprint` | `P_Rule.v` | R |
| `C79_settings` | `P_Rule.v` | R |
| `C79_one_report` | `P_Rule.v` | - |
| `C79_symbol` | `P_Rule.v` | R |
| `C79_fix` | `P_Rule.v` | R |
| `C79_fix_one` | `P_Rule.v` | R |
| `C80_module_tree` | `P_Stay.v` | R |
| `C80_layout_tree` | `P_Stay.v` | R |
| `C80_table_tree` | `P_Stay.v` | - |
| `C80_module` | `P_Stay.v` | R |
| `C80_layout` | `P_Stay.v` | R |
| `C80_layout_written` | `P_Stay.v` | R |
| `C80_table` | `P_Stay.v` | - |
| `C81_kept` | `P_Kept.v` | R |
| `C81_significant` | `P_Kept.v` | R |
| `C81_distinct` | `P_Kept.v` | R |
| `C81_unique` | `P_Kept.v` | functional_extensionality_dep, sig_forall_dec |
| `C81_num` | `P_Kept.v` | R |
| `C81_sixteen_refuted` | `P_Kept.v` | R |
| `C82_schematic` | `P_Survive.v` | R |
| `C82_schematic_read` | `P_Survive.v` | R |
| `C82_library` | `P_Survive.v` | R |
| `C82_schematic_text` | `P_Survive.v` | R |
| `C82_library_text` | `P_Survive.v` | R |
| `C83_file` | `P_Kind.v` | R |
| `C83_module` | `P_Kind.v` | R |
| `C83_schematic` | `P_Kind.v` | R |
| `C83_layout` | `P_Kind.v` | R |
| `C83_library` | `P_Kind.v` | R |
| `C83_project` | `P_Kind.v` | R |
| `C83_table` | `P_Kind.v` | R |
| `C83_texts` | `P_Kind.v` | R |
| `C84_fails` | `P_Walk.v` | R |
| `C84_aborts` | `P_Walk.v` | R |
| `C84_never` | `P_Walk.v` | R |
| `C84_one` | `P_Walk.v` | R |
| `C84_cycle` | `P_Walk.v` | R |
| `C85_finds` | `P_Walk.v` | R |
| `C85_fails` | `P_Walk.v` | R |
| `C85_aborts` | `P_Walk.v` | R |
| `C85_never` | `P_Walk.v` | R |
| `C85_one` | `P_Walk.v` | R |
| `C85_cycle` | `P_Walk.v` | R |
| `C85_error_refuted` | `P_Walk.v` | R |
| `C86_names` | `P_Diff.v` | R |
| `C86_rename` | `P_Diff.v` | R |
| `C86_update` | `P_Diff.v` | R |
| `C86_update_fails` | `P_Diff.v` | R |
| `C86_rename_pads` | `P_Diff.v` | R |
| `C86_set_reference` | `P_Diff.v` | R |
| `C87_positions` | `P_Diff.v` | R |
| `C87_adjust` | `P_Diff.v` | R |
| `C87_modify_module` | `P_Diff.v` | R |
| `C87_add_net` | `P_Diff.v` | R |
| `C87_add_netclass` | `P_Diff.v` | R |
| `C87_setup` | `P_Diff.v` | R |
| `C88_component` | `P_Line.v` | R |
| `C88_components` | `P_Line.v` | R |
| `C88_reference` | `P_Line.v` | R |
| `C88_name` | `P_Line.v` | R |
| `C88_field` | `P_Line.v` | R |
| `C88_new_field` | `P_Line.v` | R |
| `C88_count` | `P_Line.v` | R |
| `C88_set_name` | `P_Line.v` | R |
| `C88_library` | `P_Line.v` | R |
| `C89_rename_undo` | `P_Alg.v` | - |
| `C89_rename_again` | `P_Alg.v` | - |
| `C89_rename_chain` | `P_Alg.v` | - |
| `C89_rename_swap` | `P_Alg.v` | - |
| `C89_rename_move` | `P_Alg.v` | R |
| `C89_move_zero` | `P_Alg.v` | R |
| `C89_move_back` | `P_Alg.v` | R |
| `C89_move_back_refuted` | `P_Alg.v` | R |
| `C89_move_near` | `P_Alg.v` | R |
| `C89_setup_absorb` | `P_Alg.v` | - |
| `C89_setup_swap` | `P_Alg.v` | - |
| `C89_reference_undo` | `P_Alg.v` | - |
| `C89_flip_reference` | `P_Alg.v` | R |
| `C89_rotate_reference` | `P_Alg.v` | R |
| `C90_reference_absorb` | `P_Alg.v` | - |
| `C90_name_absorb` | `P_Alg.v` | - |
| `C90_reference_name` | `P_Alg.v` | - |
| `C90_field_absorb` | `P_Alg.v` | - |
| `C90_field_swap` | `P_Alg.v` | - |
| `C90_field_undo` | `P_Alg.v` | - |
| `C90_field_reference` | `P_Alg.v` | - |
| `C90_field_name` | `P_Alg.v` | - |
| `C90_component_swap` | `P_Alg.v` | - |
| `C90_component_fuse` | `P_Alg.v` | - |
| `C90_components_fuse` | `P_Alg.v` | - |
| `C90_set_name_again` | `P_Alg.v` | - |
| `C90_set_name_absorb_refuted` | `P_Alg.v` | R |
| `C91_text` | `P_Bare.v` | R |
| `C91_poly` | `P_Bare.v` | R |
| `C91_shapes` | `P_Bare.v` | R |
| `C91_lost_end` | `P_Bare.v` | R |
| `C91_pad` | `P_Bare.v` | R |
| `C91_built` | `P_Bare.v` | R |
| `C91_layers` | `P_Bare.v` | - |
| `C91_schematic` | `P_Bare.v` | R |
| `C92_whole` | `P_Out.v` | R |
| `C92_stopped` | `P_Out.v` | R |
| `C92_bare` | `P_Out.v` | R |
| `C92_saved` | `P_Out.v` | R |
| `C92_saved_quiet_refuted` | `P_Out.v` | R |
| `C92_silent_refuted` | `P_Out.v` | R |
| `C92_kinds` | `P_Out.v` | R |
| `C92_module` | `P_Out.v` | R |
| `C92_identify` | `P_Out.v` | R |
| `C92_identify_other` | `P_Out.v` | R |
| `C92_dump` | `P_Out.v` | R |
| `C92_aborted_refuted` | `P_Out.v` | R |
| `C93_one_reading` | `P_Expand.v` | - |
| `C93_expanded` | `P_Expand.v` | - |
| `C93_missing` | `P_Expand.v` | - |
| `C93_ends` | `P_Expand.v` | - |
| `C93_succeeds` | `P_Expand.v` | - |
| `C93_depends` | `P_Expand.v` | - |
| `C93_plain` | `P_Expand.v` | - |
| `C93_variable` | `P_Expand.v` | - |
| `C93_home` | `P_Expand.v` | - |
| `C93_again_refuted` | `P_Expand.v` | - |
| `C94_klc_kicad_mod` | `P_Run.v` | R |
| `C94_klc_symbol_lib` | `P_Run.v` | R |
| `C94_klc_aborts` | `P_Run.v` | R |
| `C94_one_list` | `P_Run.v` | R |
| `C94_dump_footprint` | `P_Run.v` | R |
| `C94_dump_layout` | `P_Run.v` | R |
| `C94_adjust_layout` | `P_Run.v` | R |
| `C94_moved_one` | `P_Run.v` | R |
| `C94_dump_aborts` | `P_Run.v` | R |
| `C94_identify` | `P_Run.v` | R |
| `C94_identify_aborts` | `P_Run.v` | R |
| `C94_reports` | `P_Run.v` | R |
| `C94_reports_one` | `P_Run.v` | R |
| `C95_same` | `P_Err.v` | R |
| `C95_message` | `P_Err.v` | R |
| `C95_panic` | `P_Err.v` | R |
| `C95_read` | `P_Err.v` | R |
| `C95_one` | `P_Err.v` | R |
| `C95_complete` | `P_Err.v` | R |
| `C95_line_refuted` | `P_Err.v` | R |
| `C96_same` | `P_Err.v` | R |
| `C96_message` | `P_Err.v` | R |
| `C96_panic` | `P_Err.v` | R |
| `C96_read` | `P_Err.v` | R |
| `C96_one` | `P_Err.v` | R |
| `C96_complete` | `P_Err.v` | R |
| `C97_same` | `P_Err.v` | R |
| `C97_file` | `P_Err.v` | R |
| `C97_module` | `P_Err.v` | R |
| `C97_schematic` | `P_Err.v` | R |
| `C97_layout` | `P_Err.v` | R |
| `C97_library` | `P_Err.v` | R |
| `C97_project` | `P_Err.v` | R |
| `C97_table` | `P_Err.v` | R |
| `C97_one` | `P_Err.v` | R |
| `C97_worded` | `P_Err.v` | R |
| `C97_named_refuted` | `P_Err.v` | R |
| `C98_tree` | `P_Torn.v` | - |
| `C98_module` | `P_Torn.v` | R |
| `C98_layout` | `P_Torn.v` | R |
| `C98_table` | `P_Torn.v` | R |
| `C98_file` | `P_Torn.v` | R |
| `C98_blank` | `P_Torn.v` | R |
| `C98_saved_module` | `P_Torn.v` | R |
| `C98_saved_layout` | `P_Torn.v` | R |
| `C98_saved_table` | `P_Torn.v` | R |
| `C98_library` | `P_Torn.v` | R |
| `C98_schematic` | `P_Torn.v` | R |
| `C98_schematic_lines` | `P_Torn.v` | R |
| `C98_library_refuted` | `P_Torn.v` | R |
| `C98_wire_refuted` | `P_Torn.v` | R |
| `C99_save` | `P_Torn.v` | - |
| `C99_complete` | `P_Torn.v` | - |
| `C99_module` | `P_Torn.v` | R |
| `C99_layout` | `P_Torn.v` | R |
| `C99_lost_refuted` | `P_Torn.v` | R |
| `C100_same` | `P_Says.v` | R |
| `C100_sheet` | `P_Says.v` | R |
| `C100_all` | `P_Says.v` | R |
| `C100_component` | `P_Says.v` | R |
| `C100_module` | `P_Says.v` | - |
| `C100_module_same` | `P_Says.v` | - |
| `C100_net` | `P_Says.v` | - |
| `C100_shown` | `P_Says.v` | - |
| `C100_deeper_refuted` | `P_Says.v` | R |
| `C101_all` | `P_Copy.v` | R |
| `C101_component` | `P_Copy.v` | R |
| `C101_at_hand` | `P_Copy.v` | R |
| `C101_outside_refuted` | `P_Copy.v` | R |
| `C102_lines` | `P_Eol.v` | R |
| `C102_trees` | `P_Eol.v` | R |
| `C102_file` | `P_Eol.v` | R |
| `C102_opened` | `P_Eol.v` | R |
| `C102_sheets` | `P_Eol.v` | R |
| `C102_quoted_refuted` | `P_Eol.v` | - |
| `C103_consistent` | `P_Conn.v` | - |
| `C103_one_number` | `P_Conn.v` | - |
| `C103_joined` | `P_Conn.v` | - |
| `C103_fresh` | `P_Conn.v` | - |
| `C103_update` | `P_Conn.v` | - |
| `C103_failed_refuted` | `P_Conn.v` | R |
| `C104_module` | `P_Join.v` | R |
| `C104_module_moved` | `P_Join.v` | R |
| `C104_table` | `P_Join.v` | - |
| `C104_table_moved` | `P_Join.v` | - |
| `C104_board` | `P_Join.v` | R |
| `C104_board_moved` | `P_Join.v` | R |
| `C104_schematic` | `P_Join.v` | R |
| `C104_library` | `P_Join.v` | R |
| `C104_closed_refuted` | `P_Join.v` | R |
| `C104_twice_refuted` | `P_Join.v` | R |
| `C105_choice` | `P_Blame.v` | R |
| `C105_lost` | `P_Blame.v` | R |
| `C105_line` | `P_Blame.v` | R |
| `C105_one` | `P_Blame.v` | R |
| `C105_short` | `P_Blame.v` | R |
| `C105_panic` | `P_Blame.v` | R |
| `C105_rest` | `P_Blame.v` | R |
| `C105_lib_choice` | `P_Blame.v` | R |
| `C105_lib_lost` | `P_Blame.v` | R |
| `C105_lib_line` | `P_Blame.v` | R |
| `C105_lib_one` | `P_Blame.v` | R |
| `C105_lib_short` | `P_Blame.v` | R |
| `C105_lib_panic` | `P_Blame.v` | R |
| `C105_lib_rest` | `P_Blame.v` | R |
| `C105_closed_refuted` | `P_Blame.v` | R |
| `C106_module_same` | `P_Tell.v` | R |
| `C106_layout_same` | `P_Tell.v` | R |
| `C106_module` | `P_Tell.v` | R |
| `C106_layout` | `P_Tell.v` | R |
| `C106_module_other` | `P_Tell.v` | R |
| `C106_layout_other` | `P_Tell.v` | R |
| `C106_one` | `P_Tell.v` | R |
| `C106_named_refuted` | `P_Tell.v` | R |
| `C107_text` | `P_Bytes.v` | - |
| `C107_bytes` | `P_Bytes.v` | - |
| `C107_one` | `P_Bytes.v` | - |
| `C107_cut` | `P_Bytes.v` | - |
| `C107_refused` | `P_Bytes.v` | R |
| `C107_ascii` | `P_Bytes.v` | - |
| `C107_latin` | `P_Bytes.v` | - |
| `C107_mark` | `P_Bytes.v` | R |
| `C107_loss` | `P_Bytes.v` | R |
| `C107_library` | `P_Bytes.v` | R |
| `C107_schematic` | `P_Bytes.v` | R |
| `C107_save` | `P_Bytes.v` | - |
| `C107_complete` | `P_Bytes.v` | - |
| `C107_module` | `P_Bytes.v` | R |
| `C107_layout` | `P_Bytes.v` | R |
| `C108_module` | `P_Char.v` | R |
| `C108_layout` | `P_Char.v` | R |
| `C108_table` | `P_Char.v` | - |
| `C108_ascii` | `P_Char.v` | R |
| `C108_own` | `P_Char.v` | - |
| `C108_schematic` | `P_Char.v` | R |
| `C108_library` | `P_Char.v` | R |
| `C108_line_own` | `P_Char.v` | - |
| `C109_same` | `P_Escape.v` | - |
| `C109_module` | `P_Escape.v` | R |
| `C109_layout` | `P_Escape.v` | R |
| `C109_table` | `P_Escape.v` | - |
| `C109_quoted` | `P_Escape.v` | - |
| `C109_keep` | `P_Escape.v` | - |
| `C109_module_escaped` | `P_Escape.v` | R |
| `C109_layout_escaped` | `P_Escape.v` | R |
| `C109_table_escaped` | `P_Escape.v` | - |
| `C110_component` | `P_Moved.v` | R |
| `C110_sheet` | `P_Moved.v` | R |
| `C110_sections` | `P_Moved.v` | R |
| `C110_fields_refuted` | `P_Moved.v` | R |
| `C111_moved` | `P_SymOrder.v` | R |
| `C111_alias_first` | `P_SymOrder.v` | R |
| `C112_board` | `P_Paste.v` | R |
| `C112_end` | `P_Paste.v` | R |
| `C112_other` | `P_Paste.v` | R |
| `C112_footprint` | `P_Paste.v` | R |
| `C112_table` | `P_Paste.v` | - |
| `C112_saved` | `P_Paste.v` | R |
| `C112_found` | `P_Paste.v` | - |
| `C113_footprint` | `P_FieldOrder.v` | R |
| `C113_board` | `P_FieldOrder.v` | R |
| `C113_parts` | `P_FieldOrder.v` | R |
| `C113_zone` | `P_FieldOrder.v` | R |
| `C113_row` | `P_FieldOrder.v` | - |
| `C113_pad` | `P_FieldOrder.v` | R |
| `C113_footprint_once` | `P_FieldOrder.v` | R |
| `C113_board_once` | `P_FieldOrder.v` | R |
| `C113_pad_parts` | `P_FieldOrder.v` | R |
| `C113_net_class` | `P_FieldOrder.v` | R |
| `C113_points_refuted` | `P_FieldOrder.v` | R |
| `C114_board` | `P_Log.v` | R |
| `C114_silent` | `P_Log.v` | R |
| `C114_broken` | `P_Log.v` | R |
| `C114_broken_one` | `P_Log.v` | R |
| `C114_other_kinds` | `P_Log.v` | R |
| `C114_asked` | `P_Log.v` | R |
| `C114_again` | `P_Log.v` | R |
| `C114_dump_layout` | `P_Log.v` | R |
| `C114_adjust_layout` | `P_Log.v` | R |
| `C114_klc_kicad_mod` | `P_Log.v` | R |
| `C114_klc_symbol_lib` | `P_Log.v` | R |
| `C114_fix` | `P_Log.v` | R |
| `C115_same_edits` | `P_Wrap.v` | - |
| `C115_same_outcome` | `P_Wrap.v` | - |
| `C115_same_count` | `P_Wrap.v` | - |
| `C115_same_box` | `P_Wrap.v` | R |
| `C115_number` | `P_Wrap.v` | - |
| `C115_taken` | `P_Wrap.v` | - |
| `C115_range` | `P_Wrap.v` | - |
| `C115_distinct` | `P_Wrap.v` | - |
| `C115_distinct_refuted` | `P_Wrap.v` | - |
| `C115_lookup` | `P_Wrap.v` | - |
| `C115_name_lost` | `P_Wrap.v` | R |
| `C115_count` | `P_Wrap.v` | - |
| `C115_sheet` | `P_Wrap.v` | R |
| `C115_sheet_true` | `P_Wrap.v` | R |
| `C115_sheet_refuted` | `P_Wrap.v` | R |
| `C116_exact` | `P_Shift.v` | R |
| `C116_exact_element` | `P_Shift.v` | R |
| `C116_near` | `P_Shift.v` | R |
| `C116_near_element` | `P_Shift.v` | R |
| `C116_size` | `P_Shift.v` | R |
| `C116_program` | `P_Shift.v` | R |
| `C116_exact_refuted` | `P_Shift.v` | R |
| `C116_unplaced_refuted` | `P_Shift.v` | R |
| `C117_check` | `P_Place.v` | R |
| `C117_fix_moved` | `P_Place.v` | R |
| `C117_fix_turned` | `P_Place.v` | R |
| `C117_courtyard` | `P_Place.v` | R |
| `C117_front` | `P_Place.v` | R |
| `C117_flip_refuted` | `P_Place.v` | R |
| `C118_check` | `P_AnyOrder.v` | R |
| `C118_fix` | `P_AnyOrder.v` | R |
| `C118_fix_courtyard` | `P_AnyOrder.v` | R |
| `C118_courtyard` | `P_AnyOrder.v` | R |
| `C118_box` | `P_AnyOrder.v` | R |
| `C118_board_box` | `P_AnyOrder.v` | R |
| `C118_rename` | `P_AnyOrder.v` | - |
| `C118_lookup` | `P_AnyOrder.v` | - |
| `C118_deep_box` | `P_AnyOrder.v` | R |
| `C118_deep_edits` | `P_AnyOrder.v` | R |
| `C118_check_refuted` | `P_AnyOrder.v` | R |
| `C118_box_refuted` | `P_AnyOrder.v` | R |
| `C119_footprint` | `P_BoxLog.v` | - |
| `C119_board` | `P_BoxLog.v` | - |
| `C119_silent` | `P_BoxLog.v` | - |
| `C119_schematic` | `P_BoxLog.v` | - |
| `C119_fix` | `P_BoxLog.v` | R |
| `C119_info` | `P_BoxLog.v` | R |
| `C120_symbol` | `P_SchMix.v` | R |
| `C120_library` | `P_SchMix.v` | - |
| `C120_field` | `P_SchMix.v` | - |
| `C120_number` | `P_SchMix.v` | - |
| `C120_update` | `P_SchMix.v` | - |
| `C120_add` | `P_SchMix.v` | - |
| `C120_components` | `P_SchMix.v` | R |
| `C120_search` | `P_SchMix.v` | R |
| `C120_modify` | `P_SchMix.v` | - |
| `C120_box` | `P_SchMix.v` | R |
| `C120_set_name_refuted` | `P_SchMix.v` | R |
| `C120_twice_refuted` | `P_SchMix.v` | R |
| `C121_nets` | `P_Blind.v` | R |
| `C121_update` | `P_Blind.v` | - |
| `C121_rename` | `P_Blind.v` | - |
| `C121_board` | `P_Blind.v` | R |
| `C121_add` | `P_Blind.v` | R |
| `C121_modify` | `P_Blind.v` | R |
| `C121_reference` | `P_Blind.v` | R |
| `C121_schematic` | `P_Blind.v` | R |
| `C121_fields` | `P_Blind.v` | - |
| `C121_count` | `P_Blind.v` | R |
| `C121_fix_refuted` | `P_Blind.v` | R |
| `C122_board` | `P_Union.v` | R |
| `C122_part` | `P_Union.v` | R |
| `C122_fix` | `P_Union.v` | R |
| `C122_unboxed` | `P_Union.v` | R |
| `C122_footprint` | `P_Union.v` | R |
| `C122_footprint_part` | `P_Union.v` | R |
| `C122_negative_refuted` | `P_Union.v` | R |
| `C122_schematic_refuted` | `P_Union.v` | R |
| `C123_box` | `P_Extent.v` | R |
| `C123_outline` | `P_Extent.v` | R |
| `C123_points` | `P_Extent.v` | R |
| `C123_every` | `P_Extent.v` | R |
| `C124_redrawn` | `P_Redraw.v` | R |
| `C124_repinned` | `P_Redraw.v` | R |
| `C124_shift` | `P_Redraw.v` | R |
| `C124_mirror` | `P_Redraw.v` | R |
| `C124_pin` | `P_Redraw.v` | - |
| `C124_shift_refuted` | `P_Redraw.v` | R |
| `C124_turn_refuted` | `P_Redraw.v` | R |
| `C125_module` | `P_Twins.v` | R |
| `C125_layout` | `P_Twins.v` | R |
| `C125_table` | `P_Twins.v` | - |
| `C125_schematic` | `P_Twins.v` | R |
| `C125_library` | `P_Twins.v` | R |
| `C125_module_refuted` | `P_Twins.v` | R |
| `C125_layout_refuted` | `P_Twins.v` | R |
| `C125_schematic_refuted` | `P_Twins.v` | R |
| `C125_library_refuted` | `P_Twins.v` | R |
| `C126_box` | `P_Resave.v` | R |
| `C126_board_box` | `P_Resave.v` | R |
| `C126_report` | `P_Resave.v` | R |
| `C126_edits` | `P_Resave.v` | R |
| `C126_board_edits` | `P_Resave.v` | R |
| `C126_dump_footprint` | `P_Resave.v` | R |
| `C126_klc_kicad_mod` | `P_Resave.v` | R |
| `C126_board_programs` | `P_Resave.v` | R |
| `C126_report_refuted` | `P_Resave.v` | R |
| `C127_module` | `P_Auto.v` | R |
| `C127_layout` | `P_Auto.v` | R |
| `C127_schematic` | `P_Auto.v` | R |
| `C127_library` | `P_Auto.v` | R |
| `C127_module_refuted` | `P_Auto.v` | R |
