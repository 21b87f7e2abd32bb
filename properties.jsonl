{"id": "C01", "title": "A footprint written out reads back as the same footprint", "statement": "Converting a footprint (module) to an S-expression and parsing that S-expression again returns exactly the footprint that was written, for every footprint that stays inside the representable domain (no rect_delta pads, drill/clearance values the writer really emits, non-negative stamps, rotation not -0.0, layer names without dots). Nothing is dropped, reordered or altered.", "quantifier": "every footprint value: any number and mix of texts, pads, lines, polygons, circles, arcs, models, any finite or infinite coordinate", "why_tests_cant": "The value space is unbounded (arbitrary element lists, arbitrary f64 values, optional fields in every combination); the unit tests compare two sample files.", "anchors": ["src/footprint/ser.rs: impl IntoSexp for Module/Element/FpText/Pad/...", "src/footprint/de.rs: impl FromSexp for Module/Element/FpText/Pad/...", "src/footprint/mod.rs: parse, module_to_string"]}
{"id": "C02", "title": "Re-reading a footprint that was read is stable", "statement": "If a footprint was obtained by parsing some S-expression, then writing it and parsing it again gives the same footprint (so a second load/save cycle changes nothing), unless it hits one of the listed unrepresentable cases.", "quantifier": "every S-expression accepted by the footprint parser", "why_tests_cant": "Quantifies over every accepted input document including options in unusual combination.", "anchors": ["src/footprint/de.rs", "src/footprint/ser.rs"]}
{"id": "C03", "title": "A pad with a trapezoid delta survives save and load", "statement": "A pad that carries a rect_delta can be written and read back.", "quantifier": "every pad with rect_delta set", "why_tests_cant": "Failure only shows for the combination writer-position/reader-position of one optional field; no test file has it.", "anchors": ["src/footprint/ser.rs: impl IntoSexp for Pad", "src/footprint/de.rs: impl FromSexp for Pad"]}
{"id": "C04", "title": "Drill sizes survive save and load", "statement": "The drill description of a pad (shape, width, height, offset) that is written is the one read back; in particular a drill with zero width or one whose height is almost equal to the width keeps its values.", "quantifier": "every drill value", "why_tests_cant": "The writer drops fields depending on float comparisons with a tolerance; tests sample a handful of sizes.", "anchors": ["src/footprint/ser.rs: impl IntoSexp for Drill", "src/footprint/de.rs: impl FromSexp for Drill"]}
{"id": "C05", "title": "Layer names round trip", "statement": "Printing a layer and reading the name back gives the same layer, for every layer whose free-form name has no dot and is not a reserved layer name; and reading a two-part name and printing it gives the same text.", "quantifier": "every layer value and every layer name text", "why_tests_cant": "The free-form name ranges over all strings.", "anchors": ["src/footprint/data.rs: Layer::from_string", "src/footprint/mod.rs: impl Display for Layer"]}
{"id": "C06", "title": "Edit and tag stamps round trip", "statement": "The hexadecimal stamp written for an element (tedit, tstamp) reads back as the same number for all non-negative 64 bit values; reading never yields a value that was not written.", "quantifier": "every 64-bit signed stamp", "why_tests_cant": "2^64 values; sign boundary is an edge case the tests never reach.", "anchors": ["src/footprint/de.rs: parse_hex, impl FromSexp for TEdit/TStamp", "src/footprint/ser.rs: impl IntoSexp for TEdit/TStamp"]}
{"id": "C07", "title": "A board layout written out reads back as the same layout", "statement": "Converting a layout to an S-expression and parsing it returns exactly the layout written (version, host, general, page, layers, setup, and every element in order), for every layout in the representable domain.", "quantifier": "every layout value: any list of modules, nets, net classes, graphics, zones, segments, vias, unknown elements", "why_tests_cant": "Unbounded element lists and optional fields; tests use two boards.", "anchors": ["src/layout/ser.rs", "src/layout/de.rs"]}
{"id": "C08", "title": "A footprint library table round trips", "statement": "Writing a footprint library table and reading it gives the same list of libraries in the same order with the same five strings each.", "quantifier": "every table, any number of entries and any strings", "why_tests_cant": "Unbounded list of arbitrary strings.", "anchors": ["src/fp_lib_table.rs: FpLibTable, Lib, IntoSexp, FromSexp"]}
{"id": "C09", "title": "A schematic written as text reads back as the same schematic", "statement": "Parsing the text produced for a schematic returns the same schematic (components, sheets, other elements and header) for every schematic whose strings stay in the file format's alphabet.", "quantifier": "every schematic value: any number of components with any number of fields, sheets with any labels, opaque element lines", "why_tests_cant": "Line-oriented format with quoting, counted sections and look-ahead; unbounded content.", "anchors": ["src/schematic.rs: impl Display for Schematic/Component/ComponentField/Sheet/...", "src/schematic.rs: parse, parse_component, parse_sheet"]}
{"id": "C10", "title": "A symbol library written as text reads back as the same library", "statement": "Parsing the text produced for a symbol library returns the same symbols with the same fields, aliases, pins, rectangles and opaque drawing lines.", "quantifier": "every symbol library value, any number of symbols, fields, drawings", "why_tests_cant": "Unbounded content; flags such as bold/italic/visibility in all combinations.", "anchors": ["src/symbol_lib.rs: impl Display for SymbolLib/Symbol/Field/Pin/Rectangle", "src/symbol_lib.rs: parse, parse_symbol, parse_field, parse_pin, parse_rect"]}
{"id": "C11", "title": "The quote-aware splitter recovers quoted values", "statement": "Splitting a line made of words and double-quoted values separated by one space returns those words and values in order, for any words without blanks or quotes and any quoted values without quotes (blanks allowed, also empty ones). In general every line is cut, into exactly the words it consists of, where a word is a sequence of plain and quoted pieces and an open quote runs to the end of the line; with a word count, the first words are the same and a line with fewer words is an error. Cutting at white space and into lines likewise gives exactly the words and lines.", "quantifier": "every line; every list of words and quoted values", "why_tests_cant": "Hand-written state machine over unbounded strings.", "anchors": ["src/lib.rs: parse_split_quote_aware_int, parse_split_quote_aware, parse_split_quote_aware_n"]}
{"id": "C12", "title": "Pretty printing never changes the document", "statement": "The text produced with the KiCad indenting formatter parses to the same S-expression as was given, whatever the nesting: indentation only inserts blanks and newlines between tokens.", "quantifier": "every S-expression with legal atoms", "why_tests_cant": "The formatter is stateful with a stack and parent-dependent rules; tests diff two files.", "anchors": ["src/formatter.rs: impl Formatter for KicadFormatter (open, element, close)"]}
{"id": "C13", "title": "Indentation returns to where it started", "statement": "After a complete S-expression has been written the formatter's indentation level and nesting are the same as before, so what comes next is not shifted.", "quantifier": "every S-expression and every starting formatter state", "why_tests_cant": "Depends on matching open/close over unbounded nesting.", "anchors": ["src/formatter.rs: open, close, want_indent"]}
{"id": "C14", "title": "Merging bounds gives the smallest enclosing bound", "statement": "Updating a bound with another gives the smallest rectangle enclosing both; merging is independent of order and grouping and a default bound is neutral.", "quantifier": "every pair/list of bounds with non-NaN coordinates", "why_tests_cant": "Algebraic law over all f64 quadruples and all orders.", "anchors": ["src/lib.rs: Bound::update, Bound::default, Bound::swap_if_needed"]}
{"id": "C15", "title": "The bounding box of a layout contains every drawn element", "statement": "Every coordinate that defines a board graphic line, arc, text position, dimension, zone, segment, and every placed module's own box lies within the layout's computed bounding box.", "quantifier": "every layout", "why_tests_cant": "Fold over an unbounded heterogenous element list with float arithmetic.", "anchors": ["src/layout/data.rs: impl BoundingBox for Layout and elements"]}
{"id": "C16", "title": "The bounding box of a footprint contains every fabrication element", "statement": "All end points of the elements that the footprint's bounding box takes into account lie inside the box.", "quantifier": "every footprint", "why_tests_cant": "Depends on direction of each line; the tests have no reversed line.", "anchors": ["src/footprint/data.rs: impl BoundingBox for Module, FpLine, FpCircle, FpArc, Pad"]}
{"id": "C17", "title": "The bounding box of a schematic component is around its position", "statement": "The box reported for a component contains its position; the box of a sheet holds exactly the points of the sheet and a margin of 100 above and below; the box of a schematic is the least one covering its components and sheets.", "quantifier": "every component", "why_tests_cant": "Argument order mistake is invisible when x = y as in default data.", "anchors": ["src/schematic.rs: impl BoundingBox for Component"]}
{"id": "C18", "title": "Moving a layout moves exactly the coordinates", "statement": "Adjusting an element of a layout by (x,y) adds x and y to its positions and leaves every other attribute unchanged; adjusting by zero changes nothing observable.", "quantifier": "every layout, every element kind and every offset", "why_tests_cant": "Frame property over all attributes and all element kinds.", "anchors": ["src/layout/data.rs: impl Adjust", "src/footprint/data.rs: impl Adjust"]}
{"id": "C19", "title": "Flipping twice restores the element", "statement": "Flipping a footprint, pad, text, layer or layer list to the other side and back gives the original.", "quantifier": "every flippable element, every rotation", "why_tests_cant": "Float rotation arithmetic and three-valued justification; tests never flip.", "anchors": ["src/footprint/data.rs: impl Flip for At/Effects/Layer/Layers/LayerSide/Pad"]}
{"id": "C20", "title": "Rotation angles stay within one turn", "statement": "Rotating a position by an angle within one turn either way keeps the stored rotation in range [0,360).", "quantifier": "every stored rotation in range and every delta", "why_tests_cant": "Rounding near the boundary occurs only for tiny negative deltas.", "anchors": ["src/footprint/data.rs: At::rotate"]}
{"id": "C21", "title": "Setting a footprint's reference changes only the reference", "statement": "set_reference(old,new) changes the text of exactly the reference texts that read old; every other element and every other attribute is unchanged. Afterwards the footprint no longer carries the old reference (if new differs) and carries the new one if it carried the old one. Looking up a text returns the first matching text; mutating through the lookup changes that text only.", "quantifier": "every footprint and every pair of reference texts", "why_tests_cant": "All element lists, including several reference texts or none.", "anchors": ["src/footprint/data.rs: Module::set_reference, is_reference_with_name, get_reference, get_text, get_text_mut"]}
{"id": "C22", "title": "Renaming a net renames it everywhere and nothing else", "statement": "After changing a net name in a layout no net, net class entry, pad or zone carries the old name, everything that carried it carries the new name, and all other data is unchanged.", "quantifier": "every layout and every pair of names", "why_tests_cant": "All layouts with any number of occurrences at any place.", "anchors": ["src/layout/data.rs: Layout::change_net_name"]}
{"id": "C23", "title": "Updating net names is all or nothing", "statement": "update_net_names either succeeds with the update applied to every net name of the layout, or reports an error with the layout unchanged.", "quantifier": "every layout and every fallible update function", "why_tests_cant": "Depends on where in the list the first failing element occurs.", "anchors": ["src/layout/data.rs: Layout::update_net_names"]}
{"id": "C24", "title": "Looking up and modifying a module by reference affects the first match only", "statement": "get_module returns the first module with that reference; modify_module applies the change to the first match only, leaves all else untouched and errors without change when there is none.", "quantifier": "every layout, reference and modification function", "why_tests_cant": "Higher order argument, unbounded lists.", "anchors": ["src/layout/data.rs: Layout::get_module, modify_module"]}
{"id": "C25", "title": "Unnamed-net helpers are consistent", "statement": "A name Net-(REF-PAD) is recognised as an unnamed net of REF and PAD; after set_unnamed_net(NEW) on it, it is the unnamed net of NEW and the same PAD; set_unnamed_net fails and changes nothing on other names.", "quantifier": "every reference/pad text and every existing net name", "why_tests_cant": "String slicing on arbitrary names containing separators.", "anchors": ["src/layout/data.rs: NetName::is_unnamed_net, set_unnamed_net, rename, replace_block"]}
{"id": "C26", "title": "Setup values: reading gives what was last written", "statement": "Setup::get after update_element returns the updated value; other names are unaffected; updating an absent name appends it.", "quantifier": "every setup, every name and value, any sequence of updates", "why_tests_cant": "History property over arbitrary update sequences.", "anchors": ["src/layout/data.rs: Setup::get, update_element"]}
{"id": "C27", "title": "Adding or updating a component field behaves like a map", "statement": "After add_or_update_field(name,value) looking up the field returns the value, other field names keep their values, and the reported outcome tells whether the component changed.", "quantifier": "every component, name, value", "why_tests_cant": "All field lists including duplicates and any names.", "anchors": ["src/schematic.rs: Component::add_or_update_field, get_field_value, update_field, add_new_field"]}
{"id": "C28", "title": "A newly added field gets a fresh number", "statement": "The number assigned to a new component field differs from every existing field number.", "quantifier": "every component with field numbers below the 64-bit maximum", "why_tests_cant": "Universally quantified over field lists.", "anchors": ["src/schematic.rs: Component::get_available_field_num"]}
{"id": "C29", "title": "Field numbers stay distinct over any history of edits", "statement": "Starting from a component with distinct field numbers, any sequence of add/update operations keeps numbers distinct and no field is lost.", "quantifier": "every sequence of field operations on every starting component", "why_tests_cant": "Histories of arbitrary length.", "anchors": ["src/schematic.rs: Component::add_new_field, add_or_update_field, update_field, set_reference"]}
{"id": "C30", "title": "Updating one field leaves the others alone", "statement": "update_field changes only the value of the field with that name.", "quantifier": "every component and field name", "why_tests_cant": "The side effect on visibility only shows for fields numbered above 1.", "anchors": ["src/schematic.rs: Component::update_field"]}
{"id": "C31", "title": "Modifying a component of a schematic touches only that component", "statement": "modify_component applies the function to the first component having the reference and to nothing else; all other elements, the sheets and the header are unchanged; with no such component nothing changes. modify_components applies it to every component and nothing else. increment_sheet_count changes nothing but the count.", "quantifier": "every schematic, reference and function", "why_tests_cant": "Unbounded lists, function argument.", "anchors": ["src/schematic.rs: Schematic::modify_component"]}
{"id": "C32", "title": "Collecting all components traverses the sheet tree exactly once", "statement": "all_components returns the components of the schematic and of all transitively referenced sheets that can be read; it terminates for every set of sheet files.", "quantifier": "every set of sheet files including cyclic references", "why_tests_cant": "Termination over arbitrary file graphs.", "anchors": ["src/schematic.rs: Schematic::all_components, component_by_reference, parse_file_for_sheet"]}
{"id": "C33", "title": "Component lookup finds a component wherever it is", "statement": "component_by_reference returns a component with that reference whenever the schematic or any of its readable sheets has one.", "quantifier": "every sheet hierarchy", "why_tests_cant": "Depends on the order of sheets and on unreadable ones.", "anchors": ["src/schematic.rs: Schematic::component_by_reference"]}
{"id": "C34", "title": "Fixing a footprint converges", "statement": "Applying the automatic fixes twice is the same as applying them once, and after fixing only problems that cannot be fixed automatically remain.", "quantifier": "every footprint and configuration", "why_tests_cant": "Interaction of several fixes over any element list.", "anchors": ["src/footprint/data.rs: impl CheckFix for Module"]}
{"id": "C35", "title": "Fixing a footprint preserves the electrical data", "statement": "Automatic fixes never change pads, net assignments, names, models or the order of elements other than what the rule concerns.", "quantifier": "every footprint", "why_tests_cant": "Frame property over all data.", "anchors": ["src/footprint/data.rs: CheckFix::fix for Module, FpText, FpLine"]}
{"id": "C36", "title": "Name check reports exactly the disallowed characters", "statement": "The name rule reports exactly one finding per character outside A-Za-z0-9_-. , in order and with its position, and accepts a name iff all characters are allowed.", "quantifier": "every name", "why_tests_cant": "All strings.", "anchors": ["src/checkfix.rs: allowed_1_7, allowed_1_7_items"]}
{"id": "C37", "title": "Symbol pin checks enforce the documented grid", "statement": "A pin for which the check reports nothing has its origin on the 100 mil grid, length on the 50 mil grid between 100 and 300 mil, text sizes 50 and the visibility matching its type.", "quantifier": "every pin", "why_tests_cant": "All integer coordinates.", "anchors": ["src/symbol_lib.rs: impl CheckFix for Pin"]}
{"id": "C38", "title": "Flattening and logging check results lose nothing", "statement": "Flattening a check result keeps all the individual findings in order and removes a one-element wrapper. Logging a result writes each finding as one line in order, as information or warning, indented by two blanks for each list around it except the outermost, with rule number, item and message. The section numbers are 1 to 10, no two sections share a number or a text, and the ten names belong to the numbers in the order of the rule book.", "quantifier": "every tree of check results", "why_tests_cant": "Trees of any depth.", "anchors": ["src/checkfix.rs: CheckFixData::flatter, dump_on_logger, KLCSection"]}
{"id": "C39", "title": "File kind detection is sound and ordered", "statement": "read_kicad_file returns a kind only if that kind's reader accepts the contents; it returns the first kind in the documented order whose reader accepts, and unknown only when all refuse.", "quantifier": "every file content", "why_tests_cant": "All texts.", "anchors": ["src/lib.rs: read_kicad_file"]}
{"id": "C40", "title": "A saved file is recognised as what it is", "statement": "Writing a schematic, symbol library, footprint, layout or library table and loading it with read_kicad_file gives the same kind with the same value.", "quantifier": "every representable value of each kind", "why_tests_cant": "Needs that all readers tried earlier refuse, for every document.", "anchors": ["src/lib.rs: read_kicad_file, write_*"]}
{"id": "C41", "title": "Readers never crash", "statement": "The schematic and symbol library readers return either a value or an error for any text, they never abort.", "quantifier": "every input text", "why_tests_cant": "All texts, including truncated ones at any point.", "anchors": ["src/schematic.rs: parse and ParseState", "src/symbol_lib.rs: parse and ParseState"]}
{"id": "C42", "title": "Reference ordering is a consistent sort key", "statement": "reference_ord gives for every non-empty reference its first letter and the number made of all its digits before the first comma (0 without digits or beyond 63 bits), and aborts only on the empty one; so references with the same letter are ordered by number.", "quantifier": "every pair of reference designators", "why_tests_cant": "All strings, numbers beyond 64 bit.", "anchors": ["src/lib.rs: reference_ord"]}
{"id": "C43", "title": "Numbers written to files read back exactly", "statement": "Every coordinate written as decimal text is read back as the identical floating point number, and every integer likewise.", "quantifier": "every 64-bit float and integer", "why_tests_cant": "2^64 values each.", "anchors": ["src/footprint/ser.rs, src/layout/ser.rs, src/schematic.rs, src/symbol_lib.rs: Display of f64 and i64", "src/footprint/de.rs: f_in_list etc"]}
{"id": "C44", "title": "Equality of footprint parts is an equivalence", "statement": "The equality offered on layers, pads and texts is reflexive, symmetric and transitive and equal parts are interchangeable when written. Two parts are equal exactly if they agree in everything but the net of a pad, the side of layers and the sign of zeros, or are both reference texts, or both value texts.", "quantifier": "every triple of values", "why_tests_cant": "All triples; hand written comparison functions.", "anchors": ["src/footprint/data.rs: impl PartialEq for FpText/Layer/Pad"]}
{"id": "C45", "title": "Filtered element views return exactly the matching elements in order", "statement": "Accessors that list the modules, nets, pads, texts, pins or components of a document return all elements of that kind, in document order, and nothing else.", "quantifier": "every document", "why_tests_cant": "Unbounded heterogenous lists.", "anchors": ["src/layout/data.rs: Layout::get_modules, nets, netclasses", "src/footprint/data.rs: Module::pads, lines", "src/symbol_lib.rs: Symbol::pins", "src/schematic.rs: Schematic::components"]}
{"id": "C46", "title": "Symbols are found and renamed exactly", "statement": "Finding a symbol gives the first one satisfying the test and nothing only if none does; renaming changes the name (keeping the tilde that hides it) and the value field and nothing else, and aborts exactly if the symbol has no name or no second field. The basic parts are those named L, R, C or D.", "quantifier": "every library, test and name", "why_tests_cant": "Frame property over all symbols.", "anchors": ["src/symbol_lib.rs: SymbolLib::find, Symbol::set_name, Symbol::is_basic"]}
{"id": "C47", "title": "A fixed footprint can be saved and read back", "statement": "If a footprint can be represented in a file, then after the automatic fixes (with a positive font size in the configuration) it still can: writing the fixed footprint and reading it gives the fixed footprint.", "quantifier": "every representable footprint and every configuration with a positive font size", "why_tests_cant": "Interaction of the fixes with every field of the file format.", "anchors": ["src/footprint/data.rs: CheckFix::fix for Module", "src/footprint/ser.rs", "src/footprint/de.rs"]}
{"id": "C48", "title": "The generated courtyard encloses the footprint", "statement": "When fewer than four courtyard lines exist, the fix appends exactly four lines that form a closed rectangle on the courtyard layer, and the rectangle contains every pad centre and every point of the fabrication layer. It keeps the distance of the rule book from the box of the footprint: 0.15 mm if both sides are below 2 mm, else 0.1 mm for names starting with BGA and 0.25 mm for all others.", "quantifier": "every footprint with finite coordinates up to 2^40", "why_tests_cant": "Floating point rounding of offsets and subtractions for all coordinates.", "anchors": ["src/footprint/data.rs: CheckFix::fix for Module, line 1730-1762"]}
{"id": "C49", "title": "The footprint check reports exactly the rule violations", "statement": "A finding is reported for a footprint iff the corresponding rule (reference, value and user text: presence, content, layer, visibility, font; courtyard; placement attribute) is violated.", "quantifier": "every footprint and configuration", "why_tests_cant": "All footprints: both no missed and no spurious findings.", "anchors": ["src/footprint/data.rs: CheckFix::check for Module, lines 1384-1646"]}
{"id": "C50", "title": "The S-expression readers never abort", "statement": "Reading any text as a footprint, layout or library table gives a value or an error, never a crash; read_kicad_file aborts only if the schematic or symbol library reader, tried on the way, aborts.", "quantifier": "every text; every S-expression tree without the empty expression", "why_tests_cant": "All texts; de.rs contains an unreachable!() for empty expressions whose unreachability depends on the S-expression parser.", "anchors": ["src/footprint/de.rs: impl FromSexp for Element, lines 407-440", "src/layout/de.rs", "src/fp_lib_table.rs: parse", "src/lib.rs: read_kicad_file"]}
{"id": "C51", "title": "Renaming a block in hierarchical net names", "statement": "Seen as parts between slashes, replace_block changes block names (parts with a slash on both sides) from left to right. If the block name does not occur twice in a row, every occurrence is renamed and nothing else. Names without the block are unchanged, and renaming back restores the name if the new block name was not in use. For any texts, the places of the old block name between slashes that are found from left to right are replaced, and nothing else.", "quantifier": "every net name and all block names without a slash", "why_tests_cant": "Non-overlapping substring replacement on all strings; tests would not try neighbouring blocks, partial matches and first and last parts together.", "anchors": ["src/layout/data.rs: NetName::replace_block, lines 285-290"]}
{"id": "C52", "title": "Net classes compared without their nets", "statement": "equal_no_net holds iff name, description and all eight numeric attributes agree as numbers; the nets do not matter; it is symmetric and transitive, and reflexive exactly for classes without NaN.", "quantifier": "all pairs and triples of net classes", "why_tests_cant": "All attribute combinations, including NaN and signed zero.", "anchors": ["src/layout/data.rs: NetClass::equal_no_net, lines 822-834"]}
{"id": "C54", "title": "Width and height of a box", "statement": "Width and height are the correctly rounded distances of the sides, never negative, unchanged by ordering the corners, and monotone: a box covering another, or a merged box, is at least as wide and high.", "quantifier": "every box with finite corners", "why_tests_cant": "Floating point subtraction over all finite numbers, including overflow.", "anchors": ["src/lib.rs: Bound::width, Bound::height, lines 325-333"]}
{"id": "C55", "title": "Looking up data in a footprint", "statement": "Time stamp, edit time, position, rotation and side of a footprint come from the first element of their kind (none, origin, zero and front if there is none); has_smd_attr holds iff an smd attribute is present.", "quantifier": "every footprint", "why_tests_cant": "All element lists, with repeated and missing elements in any order.", "anchors": ["src/footprint/data.rs: get_tstamp, get_tedit, at, get_rotation, is_front, has_smd_attr"]}
{"id": "C56", "title": "Opening, saving and opening again", "statement": "If a footprint, layout or library table is opened from any text, then writing it succeeds, and reading the written text gives the same value again, provided the value is clean (no rect_delta pad and the like); in particular values read from a file never contain a quote.", "quantifier": "every text that can be opened", "why_tests_cant": "All input texts: the reader must never produce a value that the writer cannot represent.", "anchors": ["src/footprint/de.rs", "src/footprint/ser.rs", "src/layout/de.rs", "src/layout/ser.rs", "src/fp_lib_table.rs", "src/formatter.rs"]}
{"id": "C58", "title": "Boxes are not larger than needed", "statement": "A layout has a box iff an element has a place on the board; its box is the smallest covering all element boxes, and for point-like drawings the smallest containing all drawn points; the box of a footprint is the smallest covering its anchor, pads and fabrication drawings; a pad box has the size of the pad (sides exchanged at a quarter turn); the box of a circle reaches from its centre as far as its second point in all four directions; texts are boxed at their anchor.", "quantifier": "every layout and footprint with finite coordinates; pads with coordinates up to 2^40", "why_tests_cant": "A box that is too large passes every containment test; minimality needs all other boxes.", "anchors": ["src/layout/data.rs: impl BoundingBox for Layout, Element, Via", "src/footprint/data.rs: impl BoundingBox for Module, Pad"]}
{"id": "C53", "title": "The command line programs report what the library says", "statement": "identify prints the kind of the file whose reader accepts the text and 'unknown' only if none does, and aborts exactly for a missing argument, a missing file, or a text on which a line reader aborts; dump_footprint prints the name followed by a text that reads as the same footprint; dump_layout prints a text that reads as the same layout and is stable under dumping again; adjust_layout prints the layout moved by (100,0); the two rule programs are silent exactly for documents without a violation, and otherwise log the name and one line per finding in order.", "quantifier": "for all file systems, argument lists and file texts (clean documents for the dumps)", "why_tests_cant": "A program is run on sample files; which texts make it abort or misreport is a question about all texts.", "anchors": ["src/bin/identify.rs", "src/bin/dump_footprint.rs", "src/bin/dump_layout.rs", "src/bin/adjust_layout.rs", "src/bin/klc_kicad_mod.rs", "src/bin/klc_symbol_lib.rs"]}
{"id": "C59", "title": "Flipping and rotating change exactly what they should", "statement": "Flipping a footprint mirrors every point of every element vertically, mirrors every angle, moves every layer to the other side, toggles the mirror flag of texts, and changes nothing else; rotating turns every angle and changes nothing else. (For arcs the mirrored data does not describe the mirrored arc.)", "quantifier": "for all footprints and rotation angles; the listed parts are shown to make up the whole element", "why_tests_cant": "A wrong or forgotten coordinate in one of many element kinds only shows for footprints holding that kind.", "anchors": ["src/footprint/data.rs: impl Flip / FlipRotate for Module, Element, Pad, FpText, FpLine, FpCircle, FpPoly, FpArc, At, Xy"]}
{"id": "C60", "title": "Edited documents survive saving", "statement": "Open a footprint, layout or schematic file, apply any sequence of the edits the library offers (flip, rotate, move, set reference, rename nets, change texts, automatic fixes, append, update fields, ...), save it, and open it again: the result is the edited document, provided new texts fit the place they are written to; without that (a quote, a blank) documents are lost. Renaming a symbol keeps the library saveable.", "quantifier": "for all readable clean files and all finite sequences of edits", "why_tests_cant": "The number of edit sequences is unbounded, and the saved invariant depends on every field an edit may touch.", "anchors": ["src/footprint/data.rs: Module operations, CheckFix", "src/layout/data.rs: Layout operations", "src/schematic.rs: Component and Schematic operations", "src/symbol_lib.rs: Symbol::set_name"]}
{"id": "C61", "title": "Documents built from nothing survive saving", "statement": "A new footprint to which saveable parts were appended and that was edited, and the default layout after any edits, are read back from their saved text unchanged; new texts and pads are saveable, the setters keep that, and set exactly their field.", "quantifier": "for all names without quotes, all appended elements and all sequences of edits", "why_tests_cant": "Default values must be in the domain of the writer for every later combination of setters.", "anchors": ["src/footprint/data.rs: Module::new, append, Pad::new, set_net, set_drill, FpText::new, set_effects, set_layer, Layers::append", "src/layout/data.rs: impl Default for Layout"]}
{"id": "C62", "title": "Exactly which footprints, layouts and library tables survive saving", "statement": "A footprint or layout is read back unchanged from its serialised tree if and only if it meets the listed conditions (no rotation, drill or radius of -0, no rect_delta, no negative time stamp, drills and font sizes the writer keeps, representable layers, integers in range, zone priority at most i64::MAX, no uninterpreted text that has a meaning); and from its saved text if and only if in addition no string holds a quote character. For library tables the quote condition alone is exact.", "quantifier": "for all footprints, layouts, tables, and all quoting functions meeting the documented contract", "why_tests_cant": "Necessity says every document outside the set is damaged: a statement about all documents, not about chosen ones.", "anchors": ["src/footprint/ser.rs", "src/footprint/de.rs", "src/layout/ser.rs", "src/layout/de.rs", "src/fp_lib_table.rs", "src/formatter.rs"]}
{"id": "C63", "title": "Saving settles after one time", "statement": "Open a footprint or layout file and save it. If the saved file can be opened, then saving it again writes the same text, and reading that gives the same document: all further save and open steps change nothing.", "quantifier": "for all readable texts and all indentation levels", "why_tests_cant": "The normalisation done by the first save has many independent sources (zeros, drills, fonts, optional parts); each pair of reader and writer must be idempotent for all numbers.", "anchors": ["src/footprint/ser.rs", "src/footprint/de.rs", "src/layout/ser.rs", "src/layout/de.rs"]}
{"id": "C57", "title": "A decimal text in a file means the nearest binary64 number", "statement": "Every text made of an optional sign, decimal digits with at most one point and an optional exponent is read as the binary64 number nearest to its value (ties to even, infinity on overflow, the sign kept also for zero); no binary64 number is nearer. Besides these only inf, infinity and nan in either case are accepted. Integers are exactly an optional sign and digits whose value fits 64 bits; time stamps the same with hexadecimal digits in either case.", "quantifier": "for all texts and all binary64 numbers", "why_tests_cant": "Texts of any length and exponents of any size; ties and the subnormal range need exact arithmetic over all inputs.", "anchors": ["src/footprint/de.rs: parse_float_element and the i, f readers of Sexp", "src/layout/de.rs", "src/schematic.rs and src/symbol_lib.rs: i64_from_string, f64_from_string, str::parse"]}
{"id": "C64", "title": "Numbers are written with the fewest digits", "statement": "The text written for a finite number other than zero is a plain decimal (sign, digits, at most one point, no exponent, no superfluous zeros) whose number of significant digits, at most 17, is the least among all decimals that are read as that number; among those with as many digits it is the nearest to the number, and the larger one of two equally near. There is no other text with these properties.", "quantifier": "for all finite binary64 numbers and all decimals", "why_tests_cant": "Minimality is a statement about all shorter decimals for each of 2^64 numbers.", "anchors": ["src/footprint/ser.rs, src/layout/ser.rs, src/schematic.rs, src/symbol_lib.rs: Display of f64"]}
{"id": "C65", "title": "Saving a schematic or symbol library settles after two times, not after one", "statement": "Open a schematic or symbol library, save it, and open the saved file. If the saved text holds no carriage return (and no sheet has 2^31 - 2 labels or more), the document now in hand is read back unchanged from its saved text, so all further save and open steps change nothing. One save is not enough, and with carriage returns no fixed number of saves is enough.", "quantifier": "for all readable texts; for every number of saves", "why_tests_cant": "Unquoted names are split anew at each reading; that this stops after one round, and that carriage returns can delay it for any number of rounds, are statements about all texts.", "anchors": ["src/schematic.rs: impl Display for Schematic and parts, parse_component, parse_sheet, parse_description", "src/symbol_lib.rs: impl Display for Symbol and parts, parse_symbol", "src/util.rs: split_quote_aware"]}
{"id": "C66", "title": "Saved footprints, boards and library tables are laid out by a fixed table of line breaks", "statement": "The text of a saved footprint, board or library table is the one given by a table that says, from the names of a list, of the lists around it and of its earlier siblings alone, how many lines and blanks stand before it and before its closing parenthesis: two blanks per level, an empty line after a run of footprints and before the first track, outline points broken after every fourth or fifth. Library tables have one line per library. (For boards: unknown elements are not named like footprints, tracks or boards in unusual places; otherwise the layout depends on more.)", "quantifier": "for all footprints, boards, tables, quoting rules and starting indentations", "why_tests_cant": "The formatter works with a stack, counters and flags that change over the whole text; that they never drift apart from the table is a statement about all trees.", "anchors": ["src/formatter.rs: KicadFormatter (open, close, element, want_indent_module, want_indent_layout, want_indent_fp_lib_table)"]}
{"id": "C67", "title": "Saved footprints, boards and library tables follow a fixed grammar", "statement": "The tree that is saved for a footprint, a board or a library table follows a written grammar: which lists there are, their names, the order and number of their parts, which parts may be missing, the allowed words, plain decimal numbers, whole numbers and at most 16 hexadecimal digits. (Points carry the name of their role; a document opened with other names in a polygon keeps them, and then does not follow the grammar.)", "quantifier": "for all footprints, boards and tables", "why_tests_cant": "The set of possible documents is infinite; tests see a few.", "anchors": ["src/footprint/ser.rs", "src/layout/ser.rs", "src/fp_lib_table.rs: IntoSexp"]}
{"id": "C68", "title": "Every document that follows the grammar can be opened", "statement": "Every tree that follows the same grammar, with the words that can be read (numbers in any decimal notation, whole numbers that fit 64 bits, layer names without a point or with a known side; parts that are optional may be missing, and the parts of pads, net classes, settings and boards may come in any order and repeatedly), is accepted as a footprint, board or library table: trying an optional part never rejects a document. The two grammars differ: the slant of a trapezoidal pad is saved after its size but cannot be read there.", "quantifier": "for all trees", "why_tests_cant": "Combinations of present and missing optional parts, at every place and nesting, with every notation of numbers.", "anchors": ["src/footprint/de.rs", "src/layout/de.rs", "src/fp_lib_table.rs: FromSexp"]}
{"id": "C69", "title": "Every document that follows the grammar is read as what it means", "statement": "A footprint, board or library table that follows the grammar of C68 is read as the value found by looking up every part by its name: each field has the value written under its name, a missing part has the documented default (layer F.Cu, width 0, thickness 1.6, page A4, the clearances of a new net class, ...), the last one counts where a part may be repeated, a drill with one number is round, the outlines of a zone are the well-formed lists after its filling and everything else there is kept. The order of the grammar matters: a line whose end is written before its start is accepted but loses both points.", "quantifier": "for all trees", "why_tests_cant": "A test compares single fields of single files; here all fields of all documents, including every combination of missing parts, are compared with a specification that does not read in sequence.", "anchors": ["src/footprint/de.rs", "src/layout/de.rs", "src/layout/data.rs: Default impls", "src/fp_lib_table.rs: FromSexp"]}
{"id": "C70", "title": "Exactly the well-formed schematic texts are read, with exactly the meaning of their sections", "statement": "A text is read as a schematic if and only if its lines are: the fixed first line, library lines, the two layer lines, and then sections (title block, component, sheet, wire, connection, no-connect mark, text, closing line, or a line kept as it is); and the schematic is the one that these sections describe: the last title block (or the default one), the elements and sheets in order, in a component the last name, position and rotation and all fields in order, in a sheet the last box, names and all labels. No text has two meanings.", "quantifier": "every text and every schematic", "why_tests_cant": "Both directions over all texts: tests read a few well-formed files and can neither show that nothing else is accepted nor that nothing well-formed is refused.", "anchors": ["src/schematic.rs: parse, parse_description, parse_component, parse_sheet, parse_sheet_label, parse_wire, parse_connection, parse_no_connect, parse_text, ComponentField::new, Description::default, Sheet::default, Component::default"]}
{"id": "C71", "title": "Exactly the well-formed symbol library texts are read, with exactly the meaning of their lines", "statement": "A text is read as a symbol library if and only if it has the three heading lines and then symbols up to the end or the closing line; each symbol has its definition line, field lines, an optional footprint list (skipped), an optional alias line, and its drawing (pins, rectangles, other lines kept as they are); the values are those at the stated places of each line, with the stated names for orientations, pin types, shapes and fills and for hidden pins. No text has two meanings.", "quantifier": "every text and every list of symbols", "why_tests_cant": "Both directions over all texts, including the eleven pin types, nine shapes and the hidden variants.", "anchors": ["src/symbol_lib.rs: parse, parse_symbol, parse_field, parse_pin, parse_rect, PinShape::make, PinShape::visible_from_str, PinType::make, PinOrientation::make, Fill::make"]}
{"id": "C72", "title": "The file of a sheet is found beside its schematic", "statement": "On Unix the file of a sheet is the sheet's file name taken relative to the directory of the schematic that contains it, unless the name is absolute; directories and names are compared as the steps a path consists of, so repeated slashes and single dots do not matter. There is no such file exactly when the schematic has no file name, or the empty one, or the root. A sheet that was loaded knows its own file, so nested sheets are looked for beside it, not beside the top schematic.", "quantifier": "every schematic, file name and sheet", "why_tests_cant": "Path arithmetic has many corner cases (root, dots, trailing and repeated slashes) that no test in the repository touches.", "anchors": ["src/schematic.rs: filename_for_sheet, parse_file_for_sheet, parse_file"]}
{"id": "C73", "title": "What a saved schematic looks like", "statement": "The text of a schematic consists of exactly these lines in this order: version, libraries, layers, title block, elements in order, sheets in order, closing line. Each line consists of its words separated by one blank, integers as their shortest decimal text, numbers as described in C64, texts in quotes, the coordinates of fields, texts and components filled with blanks up to three or four places, the name of a field only from field four on, the labels of a sheet counted from two. No other text has this form.", "quantifier": "every schematic", "why_tests_cant": "A round trip test does not notice a wrong width, an extra blank or a changed comment line, since the reader skips them; other programs and version control see them.", "anchors": ["src/schematic.rs: Display for Schematic, Description, Component, ComponentField, Sheet, SheetLabel, Wire, Connection, NoConnect, Text"]}
{"id": "C74", "title": "What a saved symbol library looks like", "statement": "The text of a symbol library consists of exactly the header, for each symbol its comment lines, definition, fields, aliases if there are any, drawing and end lines, and the closing line, with words separated by one blank; the comment shows the value of the second field, bold is written as I, a plain visible pin has no shape. No other text has this form. Saving panics exactly when some symbol has fewer than two fields.", "quantifier": "every list of symbols", "why_tests_cant": "The reader skips the comment lines and ignores blanks, so round trip tests cannot see them; the panic needs symbols no test builds.", "anchors": ["src/symbol_lib.rs: Display for SymbolLib, Symbol, Field, Draw, Rectangle, Pin"]}
{"id": "C75", "title": "Exactly when the text readers abort, and when they refuse", "statement": "Reading a schematic aborts exactly when, after correct sections, the text ends after the list of libraries or inside a section that was in order so far (title block, component, sheet, wire, text), or a blank line stands where a section should begin, or a component field that is in order up to there has an empty or too short letter group, or a global or hierarchical label has eight words. Reading a symbol library aborts exactly when, after correct symbols, the text ends after the second comment line or in or after the fields, an empty line stands among the fields, a field in order up to there has an empty or too short letter group, or the footprint list is not ended or is the end of the text. Every other text is read (C70, C71) or refused with an error.", "quantifier": "every text", "why_tests_cant": "The condition is an equivalence over all texts; tests can show some aborts but not that there are no others.", "anchors": ["src/schematic.rs: parse and the parse_* functions, ComponentField::new_from", "src/symbol_lib.rs: parse, parse_symbol, parse_field"]}
{"id": "C76", "title": "Exactly which trees are footprints, boards and library tables, and what each of them is read as", "statement": "A tree is read as a footprint, board or library table exactly if it follows the grammar of C68 widened by what the readers do not check: the names of points may be exchanged, both points and most parts of footprint shapes may be missing, values of simple elements may be followed by anything, numbers may be infinite or no numbers, layer names may have several further pieces, zone rules and fill modes may be any word. The result is then determined by the tree: values are looked up by name; a point of a footprint shape counts only if it stands in its place under its own name and is the origin otherwise, a point of a board drawing keeps the name it was written with. The program stops exactly at an empty element of a footprint that is reached after correct ones, and refuses every other tree with an error. For trees that follow the usual grammar the meaning is that of C69.", "quantifier": "every tree", "why_tests_cant": "The statement is an equivalence over all trees of any shape and depth, with the exact result; tests can only sample accepted and refused trees.", "anchors": ["src/footprint/de.rs", "src/layout/de.rs", "src/fp_lib_table.rs:65-89", "src/footprint/data.rs:934-970 Layer::from_string"]}
{"id": "C77", "title": "Exactly which texts are documents, and what a file of any kind is read as", "statement": "A text is read as a tree exactly if it spells one tree with white space around it: a word is a non-empty run of characters other than white space, parentheses and quotes, or anything without quotes between quotes; a list is its elements between parentheses, with white space where two words would run together. No text spells two trees. Hence a text is a footprint, board or library table exactly if it spells a tree of C76, and is refused otherwise. Opening a file gives a document of some kind exactly if the file exists, its text is such a document (for schematics and symbol libraries by C70 and C71, for projects by its first characters) and the kind is not tried after the one asked for; it gives an unknown file exactly if any kind is asked for and no reader takes or aborts on the text; it aborts exactly on the texts of C75 if their reader is reached; and it is an error in all other cases. No text is two documents.", "quantifier": "every text, file name, file system, kind asked for", "why_tests_cant": "Equivalences over all texts with arbitrarily nested lists, white space and quotes; tests can only sample spellings.", "anchors": ["src/lib.rs:82-237", "src/footprint/mod.rs:57-61 parse", "src/layout/mod.rs:16-31", "src/fp_lib_table.rs:92-103"]}
{"id": "C78", "title": "Flipping and rotating lose at most rounding errors", "statement": "For every footprint whose angles lie within one turn, flipping it twice restores all places, layers and other attributes; each angle comes back within 2^-44 degrees, and a text that was justified comes back mirrored. Rotating by any angle between -360 and 360 changes only angles; each becomes the sum up to whole turns and 2^-43 degrees and stays in [0,360]. After n rotations the error is at most n times 2^-43, and rotating there and back at most 2^-42. (C19 and C20 give the angles for which there is no error.)", "quantifier": "every footprint with angles within a turn, every rotation angle within a turn, every sequence of rotations", "why_tests_cant": "The claim is about rounding of arbitrary binary64 numbers and about sequences of any length.", "anchors": ["src/footprint/data.rs:268-274, 375-398 flip", "src/footprint/data.rs: rotate, At::rotate, At::flip"]}
{"id": "C79", "title": "What the rule checks report and what the fixes make, finding by finding and element by element", "statement": "The report about a footprint holds, for each line of the rule table (text missing, wrong content, layer, visibility, aspect, height, width, thickness; courtyard; placement attribute) whose condition is met, that finding once, in the order of the table, and nothing else. The report about a symbol holds the findings about its name, then about each field in order, then, unless it is a power or graphics symbol, about each drawing in order; one finding stands alone and several about the same thing are put in a list. The fixed footprint has the same name and at each place the same element, except that the first text called reference, value and user get the content, layer type, visibility and font of the rules; then follow, exactly if missing, the label with the content %R, the attribute smd of footprints with only SMD pads, and the four lines of the courtyard with the corners and the width given by the rules.", "quantifier": "every footprint, symbol and configuration", "why_tests_cant": "Complete descriptions of the outputs for all element lists, with the order and number of findings; tests only check single rules on a few footprints.", "anchors": ["src/footprint/data.rs:1383-1763 check, fix", "src/symbol_lib.rs:855-1130 check", "src/checkfix.rs:51-110"]}
{"id": "C80", "title": "Exactly which files do not change when they are opened and saved", "statement": "Reading a tree as a footprint, board or library table and writing it again gives the same tree exactly if the tree has the parts written by the program in their order (each part once, optional or repeated as listed in the specification), its numbers are in the written form, whole numbers have no leading zeros or plus sign and fit in 64 bits, time stamps are upper case hexadecimal without leading zeros below 2^63, layer names have no point or a known side before the only point, angles and other parts that are left out when they are zero are not zero, and no unknown board element has a known name. A text is unchanged by opening and saving exactly if it is such a tree in the layout of C66.", "quantifier": "every tree, every text, every quoting rule that reads back", "why_tests_cant": "An equivalence over all trees and texts; round trip tests show that some files are kept but not which ones are changed.", "anchors": ["src/footprint/ser.rs", "src/footprint/de.rs", "src/layout/ser.rs", "src/layout/de.rs", "src/fp_lib_table.rs", "src/formatter.rs"]}
{"id": "C81", "title": "Numbers of at most 15 digits are written as they were read", "statement": "A number text without exponent, plus sign and superfluous zeros that has at most 15 digits, or at most 15 significant digits between 10^-300 and 10^300, is read as a finite number that is written as the same text. Different decimals of 15 digits are read as different numbers, and no number has two such texts. With 16 digits this is false: 9007199254740993 is written 9007199254740992.", "quantifier": "every text with at most 15 (significant) digits", "why_tests_cant": "There are more than 10^15 such texts; the claim depends on the rounding of the reader and the choice of the shortest text by the writer together.", "anchors": ["src/schematic.rs:1149 f64_from_string", "src/footprint/de.rs and ser.rs: f64 values", "src/layout/de.rs and ser.rs: f64 values"]}
{"id": "C82", "title": "Exactly which schematics and symbol libraries survive saving", "statement": "A schematic whose text has less than 2^31 characters is read back from its text as the same schematic if and only if it meets a list of checkable conditions on its texts, numbers and lines (words without blanks, lines that do not end in a carriage return or look like the end of a section, numbers in range, ...). If it was read from a file before, a shorter list is enough. The same holds for symbol libraries without a bound. And a file stays unchanged by opening and saving exactly if it is the exact text of such a schematic or library.", "quantifier": "every schematic with a text below 2^31 characters, every symbol library, every text", "why_tests_cant": "An equivalence over all documents: tests can show that some documents survive but not that every document outside the list is changed or refused.", "anchors": ["src/schematic.rs:205-1127 Display impls, 1129-1565 parse", "src/symbol_lib.rs: Display impls and parser"]}
{"id": "C83", "title": "Which error is reported when a file cannot be opened", "statement": "Opening a file fails with an input error exactly if the file is not there. Any other refusal reports one fixed error for the kind asked for: an S-expression error for footprints, boards and library tables, the error Other for schematics, symbol libraries and projects. The readers for one kind also report Other exactly if the file holds a kind that is tried earlier. The text readers never report the error Parse.", "quantifier": "every set of files, every file name, every kind asked for, every error", "why_tests_cant": "The readers have hundreds of places where an error can arise; a test reaches one of them at a time, and the error reported depends on which reader is tried last.", "anchors": ["src/lib.rs:120-237 read_kicad_file, read_module, read_schematic, read_layout, read_symbol_lib, read_project, read_fp_lib_table", "src/util.rs:10-18 read_file", "src/error.rs:10-78", "src/project.rs:20-28"]}
{"id": "C84", "title": "How collecting all components of a hierarchy ends", "statement": "Collecting all components of a schematic and its sheets has exactly one of three outcomes. It returns the list of the components in reading order if every sheet can be opened and the nesting ends. It fails like the first sheet in reading order that cannot be opened, when everything before it was collected. Or it goes deeper without end. With finitely many files the last happens exactly if the walk comes back to a schematic it is inside of, and a call that is not over at a depth of one more than the number of files never is.", "quantifier": "every file system, every schematic, every nesting of sheets", "why_tests_cant": "A test has one set of files; a call that never ends cannot be observed by running it.", "anchors": ["src/schematic.rs:153-171 all_components", "src/schematic.rs:1570-1594 parse_file, filename_for_sheet, parse_file_for_sheet"]}
{"id": "C85", "title": "How looking for a reference in a hierarchy ends", "statement": "Looking for a reference has exactly one outcome. It gives the first component with the reference in reading order, counting a sheet in which the search fails as a sheet without it. It fails with Other if no sheet has it, or with the error of the first own sheet that cannot be opened. It aborts with the first sheet whose reader aborts, or it never ends; with finitely many files the last happens exactly if the search comes back to a schematic it is inside of. The claim that a missing file is reported as such is false for sheets of sheets.", "quantifier": "every file system, every schematic, every reference", "why_tests_cant": "A test has one set of files and one reference; which failures are swallowed depends on the depth at which they happen.", "anchors": ["src/schematic.rs:174-197 component_by_reference", "src/schematic.rs:1570-1594 parse_file, filename_for_sheet, parse_file_for_sheet"]}
{"id": "C86", "title": "Renaming touches only the names in the text", "statement": "For every board the text is made of fixed pieces with the net names, quoted where needed, between them; every board that differs only in net names has the same pieces. So renaming a net changes in the saved text exactly the words equal to the old name, updating names changes exactly the names (up to and including the first failing one if it stops), and the same holds for the pads and the reference texts of a single footprint.", "quantifier": "every board or footprint, every quoting rule, every indentation, every pair of names, every update function", "why_tests_cant": "A test compares two texts; that no other line, break or blank can move for any board is a statement about the stateful formatter on all trees.", "anchors": ["src/formatter.rs KicadFormatter", "src/layout/ser.rs", "src/layout/data.rs:648-700 change_net_name, update_net_names", "src/footprint/data.rs:155,209 set_reference, rename_net"]}
{"id": "C87", "title": "Edits change only their part of the text", "statement": "Moving a board changes in its text exactly the coordinates of the moved points, each becoming the text of its sum with the offset. Modifying a footprint replaces one stretch of the text, which is the text of that footprint saved alone one level deeper with only its last line indented. Adding a net or net class inserts one block before the end, preceded by an indented new line if the last element is a footprint. Updating a setup value changes that word, or inserts one line.", "quantifier": "every board (for footprints, nets, classes and new setup values: without unknown parts that contain boards, footprints or tracks), every quoting rule, indentation and offset", "why_tests_cant": "The formatter carries state from one element to the next; a test sees one sequence of elements.", "anchors": ["src/formatter.rs KicadFormatter", "src/layout/ser.rs", "src/layout/data.rs:731-792 modify_module, add_net, add_netclass", "src/layout/data.rs:853-900 update_element, adjust"]}
{"id": "C88", "title": "Edits of schematics and symbols change only their words", "statement": "Modifying the component with a given reference replaces the text of the first such component and nothing else of the saved schematic, or nothing if there is none; modifying all components replaces exactly their texts. In the text of a component a new reference replaces the word in its second line and the values of its fields numbered 0, a new name the word before it and the values of its fields numbered 1, updating a field the values of the fields with that name and the visibility of the fields numbered above 1, and a new field is one new line with an unused number. Counting a sheet changes one numeral. Renaming a symbol changes three words of its text, and exchanging a symbol of a library exchanges its text.", "quantifier": "every schematic, component, symbol and library, every modification function, every name and value", "why_tests_cant": "A test compares two texts; that no other line can change for any document is a statement about all of them.", "anchors": ["src/schematic.rs:87-118 modify_component, modify_components", "src/schematic.rs:200-202 increment_sheet_count", "src/schematic.rs:515-600 update_reference, update_name, update_field, add_new_field", "src/symbol_lib.rs:292-304 set_name", "src/schematic.rs Display impls", "src/symbol_lib.rs:170-273 Display impls"]}
{"id": "C89", "title": "Which edits of boards commute, absorb or undo each other", "statement": "Renaming a net and renaming it back restores the board exactly if the new name was not in use; doing it twice is doing it once; renaming a to b and b to c is renaming a to c exactly if b was not in use; renamings of unrelated names commute, and renaming commutes with moving. Moving by zero changes nothing exactly if no coordinate is negative zero. Moving there and back restores every board whose coordinates and offsets are multiples of one power of two below 2^52 times it; it does not restore every board, but if all numbers are below 4096 no coordinate changes by more than 2^-40. Of setup values the last counts, and two may be updated in either order exactly if not both are new. Changing a reference back restores a footprint exactly if no reference text had the new value, and changing it commutes with flipping and rotating.", "quantifier": "every board, footprint, name, offset and setup section", "why_tests_cant": "The exact conditions are equivalences over all boards; a test checks one board on one side of the condition.", "anchors": ["src/layout/data.rs:648-683 change_net_name, update_net_names", "src/layout/data.rs:616-622 adjust", "src/layout/data.rs:853-865 update_element", "src/footprint/data.rs:155-165 set_reference"]}
{"id": "C90", "title": "Which edits of schematics and symbols commute, absorb or undo each other", "statement": "Of two references, names or values of one field the last counts; reference and name, and fields of different names, may be set in either order. Writing the old value back restores a component exactly if all fields of that name had that value and no field numbered above 1 was visible. A field and the reference (or the name) may be set in either order exactly if the field is not one that holds it. Components with different references may be modified in either order unless one becomes the other, and two modifications of one component are one. Naming a symbol twice is naming it once exactly if the symbol's name began with a tilde or the first new name did not.", "quantifier": "every component, schematic and symbol, every name, value and modification", "why_tests_cant": "The exact conditions are equivalences over all components; a test checks one order of one pair of edits.", "anchors": ["src/schematic.rs:515-600 update_reference, update_name, update_field", "src/schematic.rs:87-118 modify_component, modify_components", "src/symbol_lib.rs:292-304 set_name"]}
{"id": "C91", "title": "What a file does not say", "statement": "Every optional part of a footprint element may be left out of the file: for every choice of parts, what is written is kept and what is not is the origin, the front copper layer, plain letters, a zero width, no drill and no layers. The constructors build exactly what the barest element of their kind reads as, the empty board is version 4 on an A4 page 1.6 thick, and an empty component or sheet is the documented dummy. A line, circle or arc that gives its end without its first point is accepted and loses the end.", "quantifier": "all names, values and layers, all choices of parts present or absent, all points", "why_tests_cant": "The defaults are written twice, once in the constructors and once in the readers, and a test compares only the combinations of parts somebody wrote a file for.", "anchors": ["src/footprint/de.rs:213-371", "src/footprint/data.rs:555-572", "src/footprint/data.rs:990-992", "src/footprint/data.rs:1088-1105", "src/footprint/data.rs:1153-1308", "src/layout/data.rs:602-614", "src/layout/data.rs:795-818", "src/layout/de.rs:462-527", "src/schematic.rs:394-431", "src/schematic.rs:807-858"]}
{"id": "C92", "title": "The reader says which lines it skips", "statement": "While a schematic is read, a line is printed for every line between the ends of a component or sheet that begins with none of the words known there, in order, and for no other line. A text that does not read gives the reports of its longest beginning that reads; a text without the heading gives none. Reading a saved schematic reports one empty line per component without unit line and nothing else. Files of other kinds are read silently, so the programs print exactly their results; asking for a layout and getting a schematic prints reports before the abort. Other lines (a second L line) are lost without report: shown by witness.", "quantifier": "for all texts, files, arguments and schematics that satisfy sch_ok", "why_tests_cant": "A test looks at a few schematics and rarely at standard output; the statement fixes the printed lines for every text, including texts that stop reading half way, and for every kind of file.", "anchors": ["src/schematic.rs:1278-1303", "src/schematic.rs:1373-1394", "src/lib.rs:138-177 read_kicad_file", "src/bin/identify.rs:7-14"]}
{"id": "C93", "title": "What the URI of a footprint library stands for", "statement": "get_expanded_uri gives, for every URI, environment and home directory, the text with each variable replaced by its value, or an error that names the first variable without value. Every URI reads in exactly one way as letters and variables (${name}, the longest $name, $$ as one dollar, other dollars and an unclosed ${ as themselves). A tilde at the beginning is the home directory if the result goes on with a slash or ends; a tilde or dollar that comes out of a variable is left alone, so expanding twice may differ from expanding once. Success depends on exactly the variables the URI names.", "quantifier": "for all URIs, environments and home directories", "why_tests_cant": "Environment variables, nesting and odd spellings combine without bound; a test sees a few URIs in the environment of one machine.", "anchors": ["src/fp_lib_table.rs:35-41 get_expanded_uri"]}
{"id": "C94", "title": "All that the programs do", "statement": "For every file system, argument list and text, each of the six programs of src/bin has exactly one behaviour, given by what the text means: klc_kicad_mod and klc_symbol_lib log the findings of the rule table, one line each under the name of the footprint or symbol; dump_footprint and dump_layout print the text a writer specification gives; adjust_layout prints that of the board with every position moved by (100, 0); identify prints the kind. They abort exactly when no file is named, it does not exist, or its text means nothing of the kind (for identify: is one that stops a reader). Standard output begins with the reports about the text as a schematic.", "quantifier": "all file systems, argument lists, texts and quoting rules (boards: those without oddly placed footprint/track/board names)", "why_tests_cant": "a test runs a program on a few files; the claim is an equivalence between outcomes and meanings for all texts, including all that make it abort", "anchors": ["src/bin/adjust_layout.rs:1-25 main", "src/bin/dump_footprint.rs:1-16 main", "src/bin/dump_layout.rs:1-23 main", "src/bin/identify.rs:1-14 main", "src/bin/klc_kicad_mod.rs:1-30 main", "src/bin/klc_symbol_lib.rs:1-32 main", "src/lib.rs:138-177 read_kicad_file"]}
{"id": "C95", "title": "What the schematic reader says when it refuses a text", "statement": "For every text that is not a schematic, the error says exactly what the first unmet demand of a table prescribes: the demands on each line (number of parts, words that have to be numbers, letters and names from lists) stand in the order in which they are checked, each with its complaint or with none, in which case the reader aborts; sections, components and sheets before the bad line have to be readable. Each text has at most one complaint, and a text has none exactly if it is a schematic. The complaint need not show the line it is about.", "quantifier": "all texts, all messages", "why_tests_cant": "The complaint depends on the order of some eighty checks and on everything before the bad line; a test fixes one bad text.", "anchors": ["src/schematic.rs:225-235 assume_line", "src/schematic.rs:1129-1175 char_at assume_string i64_from_string f64_from_string bool_from_string bool_from", "src/schematic.rs:1176-1299 word_and_qstring parse_description parse_component_* parse_component", "src/schematic.rs:1301-1396 parse_sheet_* parse_label_* parse_sheet", "src/schematic.rs:1398-1563 parse_wire parse_connection parse_no_connect parse_text parse", "src/error.rs:70-73 str_error"]}
{"id": "C96", "title": "What the symbol library reader says when it refuses a text", "statement": "For every text that is not a symbol library, the error says exactly what the first unmet demand prescribes: the three heading lines, the mark before a symbol, the ten parts of its definition, each field, the list of footprints, the aliases, each pin and rectangle, and the closing lines. The complaint about a pin shape leaves out a leading N. The reader aborts exactly where the demand has no complaint: an empty line or the end of the text among the fields, a list of footprints that is not closed, or a style word that is too short. Each text has at most one complaint, and none exactly if it is a symbol library.", "quantifier": "all texts, all messages", "why_tests_cant": "As for C95.", "anchors": ["src/symbol_lib.rs:585-595 assume_line", "src/symbol_lib.rs:624-653 assume_string i64_from_string f64_from_string bool_from_string", "src/symbol_lib.rs:660-729 parse_symbol", "src/symbol_lib.rs:731-817 bool_from parse_field parse_pin parse_rect", "src/symbol_lib.rs:819-842 parse parse_str", "src/error.rs:70-73 str_error"]}
{"id": "C97", "title": "What the error says when a file is not what was asked for", "statement": "Opening a file as a footprint, schematic, board, symbol library, project or footprint library table fails with a text of this library exactly if the file is of a kind that is tried earlier, and then the text is unexpected KIND in PATH with the name of that kind, or if it is none of the kinds tried and the kind asked for is a schematic, a symbol library or a project, and then the text is the complaint of that reader. There is one text, and there is one whenever the error is one of this library's own. A file of a kind tried later is not named.", "quantifier": "all file systems, paths and texts", "why_tests_cant": "Six readers are tried in order, and the complaint is that of the last one only if none before it accepts the text or aborts.", "anchors": ["src/lib.rs:121-133 Display for KicadFile", "src/lib.rs:138-177 read_kicad_file", "src/lib.rs:180-201 read_module read_schematic read_layout", "src/lib.rs:216-237 read_symbol_lib read_project read_fp_lib_table", "src/project.rs:20-28 parse_str"]}
{"id": "C98", "title": "A file that was cut short is noticed", "statement": "If the text of a footprint, board or footprint library table is cut anywhere before its last closing parenthesis, every reader refuses what is left: as one of these three kinds with an error about the tree, as another kind with its own error, and without a kind it is unknown; if only white space is missing nothing is lost. In particular no footprint this library wrote can lose any of its last characters unnoticed. What can be read of a cut symbol library is a list of its first symbols. What can be read of a cut schematic has the same heading, its first elements and sheets and at most one thing more; cut at the end of a line it has no such thing. It is not true that a cut library or schematic is always noticed: a library comes out smaller, and a wire may end elsewhere.", "quantifier": "all texts and all places to cut, all quoting rules that keep the contract", "why_tests_cant": "There are as many cuts as characters, and which of them leave something readable depends on the whole grammar.", "anchors": ["src/footprint/mod.rs:57-61 parse", "src/layout/mod.rs:25-31 parse", "src/fp_lib_table.rs:92-97 parse", "src/symbol_lib.rs:839-842 parse_str", "src/schematic.rs:1501-1563 parse", "src/lib.rs:138-177 read_kicad_file"]}
{"id": "C99", "title": "What is left after a save that fails", "statement": "Whatever the system does during a save, no other file changes; after success the file holds the new text; after the text create error in file ... it holds what it held before; after write error in file ... it holds a beginning of the new text; and each of these can happen. Opening the file of a footprint or board that can be saved then gives what was saved, or what it gave before, or an error about the tree, and never another footprint or board; after success it gives what was saved. It is not true that a failed save keeps the earlier content.", "quantifier": "all file systems, names, texts and answers of the system", "why_tests_cant": "Full disks and interrupted writes cannot be had at will, and there is one for each length.", "anchors": ["src/util.rs:21-43 write_file", "src/lib.rs:204-213 write_layout write_module"]}
{"id": "C100", "title": "What the errors of operations say", "statement": "Collecting the components of a schematic fails with a text exactly if a first sheet in reading order cannot be opened with that text; the text is that the schematic has no file name, that its directory is not known, or the complaint of the schematic reader. Looking for a reference fails with a text exactly if it is nowhere and all own sheets can be opened, then the text names the reference, or if a first own sheet cannot be opened with that text; what is wrong in deeper sheets is never said. Changing a footprint fails exactly if no footprint carries the reference, with a text that names it, and changes nothing; renaming a net fails exactly if its name was not made by the program, with a text that gives it. What is shown of two different errors is different.", "quantifier": "all file systems, schematics, boards, references and names", "why_tests_cant": "Errors in sheets of sheets are swallowed in one operation and passed on in the other.", "anchors": ["src/schematic.rs:153-171 all_components", "src/schematic.rs:174-197 component_by_reference", "src/schematic.rs:1577-1595 filename_for_sheet parse_file_for_sheet", "src/layout/data.rs:731-754 modify_module", "src/layout/data.rs:918-925 set_unnamed_net", "src/error.rs:58-69 Display for KicadError"]}
{"id": "C101", "title": "A design works the same in another directory", "statement": "If the files below one directory are also below another one, at the same places, and paths from the root give the same, then opening a schematic there, collecting all its components or looking for one by reference, gives the same components, or the same error with the same text, or the same abort, to any depth of sheets, however the paths are spelled. Copying only the files inside the directory is not enough, because a sheet may name a file outside.", "quantifier": "all file systems, directories, spellings of paths, schematics, references and depths", "why_tests_cant": "Each sheet is looked for beside the file it is named in, so the directory enters at every level, and paths have many spellings.", "anchors": ["src/schematic.rs:153-197 all_components component_by_reference", "src/schematic.rs:1571-1595 parse_file filename_for_sheet parse_file_for_sheet"]}
{"id": "C102", "title": "It does not matter how the lines of a file end", "statement": "If two texts differ only in whether lines end in a newline or in a carriage return and a newline, each end of either sort, then a schematic or symbol library reads from both as the same value, fails with the same text or aborts alike, and the same skipped lines are printed. The same holds for footprints, boards and footprint library tables if no line ends inside quotes; there the quoted text keeps its line end. A file is opened as the same kind with the same content or error, whichever kind is asked for, a project being its own text, and all the sheets of a design give the same components.", "quantifier": "every pair of texts, every mixture of line ends, every kind asked for, every file system, every depth of sheets", "why_tests_cant": "There are as many mixtures as subsets of lines; equality of results including errors and aborts for all texts is not observable by tests.", "anchors": ["src/schematic.rs:1501-1564 parse", "src/symbol_lib.rs:819-837 parse", "src/util.rs:10-16 read_file", "src/lib.rs:138-177 read_kicad_file", "src/schematic.rs:153-197 all_components, component_by_reference"]}
{"id": "C103", "title": "What a change of net names does to the connections of a board", "statement": "Renaming a net keeps all net numbers; a board whose numbers stand for one name each stays so, and so does one all of whose nets are declared. After it two places are on nets of the same name exactly if they were before or one was on the old and the other on the new name, so the connections are unchanged exactly if one of the two names was not in use (or they are equal); names stand for one number each exactly if the two names did not have different numbers. The same for any change of all names that succeeds: connections stay exactly if no two names in use become one. A change that fails halfway can leave one number with two names and undeclared nets.", "quantifier": "every board, every pair of names, every update function, every pair of places", "why_tests_cant": "The statement is about all pairs of places on all boards and gives necessary and sufficient conditions; tests rename one net on one board.", "anchors": ["src/layout/data.rs:648-655 change_net_name", "src/layout/data.rs:658-683 update_net_names"]}
{"id": "C104", "title": "Files can be put together from parts", "statement": "A footprint, footprint library table or board whose entries are those of two parts reads exactly if both parts read, and then its elements are those of the first followed by those of the second; of the board entries that exist once (version, host, general, page, setup, layers) the last one counts. Moving entries only moves what is read, on a board as long as no entry that exists once stands there twice. If a schematic or symbol library with a first part reads, then the whole with a second part appended reads exactly if the second part does, and gives elements, sheets and symbols one after the other; the description is that of the second part if it has one. A closing line in the first part of a library, or an entry that stands twice on a board, breaks this.", "quantifier": "every list of entries, every permutation, every pair of parts, every text with these lines", "why_tests_cant": "Composition over all pairs of parts and all permutations cannot be enumerated by tests.", "anchors": ["src/footprint/de.rs:442-453 Module from_sexp", "src/layout/de.rs:462-527 Layout from_sexp", "src/fp_lib_table.rs:30-90 from_sexp", "src/schematic.rs:1501-1564 parse", "src/symbol_lib.rs:819-837 parse"]}
{"id": "C105", "title": "An error is about the first line that cannot be mended", "statement": "For a schematic or a symbol library, lines either can be continued to a text that reads, or every text beginning with them fails with the same message (or panics); never both. Each message other than 'end of file reached' belongs to one line: the lines before it can be continued to a text that reads, and whatever follows the line the message is the same. 'end of file reached' is only said about texts that can be continued, and a panic is of one kind or the other. Sections or symbols that read change nothing in the error about what follows them; for libraries the first part must not hold the closing line, since nothing behind that is looked at.", "quantifier": "all texts and all continuations of them, all messages", "why_tests_cant": "A test can try some wrong files with some endings; that no continuation of any length changes the message, and that some continuation of the lines before reads, is about infinitely many texts.", "anchors": ["src/schematic.rs:1129-1564 parse_description, parse_component, parse_sheet, parse_wire, parse_text, parse", "src/symbol_lib.rs:624-837 parse_symbol, parse_field, parse_pin, parse_rect, parse"]}
{"id": "C106", "title": "What the program says about a tree that is no footprint or board", "statement": "Reading a tree as a footprint or a board ends in a text of the program itself exactly when everything before the first wrong place follows the grammar and that place is one of the following, and the text is the one given for it: an unknown element, layer side, point name, pad type, pad shape, pad part, layer type or net class field is quoted; a pad part without a value and a thickness in a pad have their own texts. There is at most one such text. All other mistakes are left to the reader of the dependency. A mistake in a part that may be missing is never named.", "quantifier": "for all trees, with any way of showing trees and numbers", "why_tests_cant": "whether a text is given, and which, depends on the whole tree before the mistake; tests show a few mistakes at one place each", "anchors": ["src/footprint/de.rs:44-157 Layer, Layers, Xy, Pts", "src/footprint/de.rs:107-129 parse_part_float", "src/footprint/de.rs:196-275 Part, Pad", "src/footprint/de.rs:407-453 Element, Module", "src/footprint/data.rs:798-830 PadType, PadShape", "src/footprint/data.rs:934-954 Layer::from_string", "src/layout/de.rs:117-226 layers, net classes", "src/layout/de.rs:259-527 elements of boards"]}
{"id": "C107", "title": "Files are bytes: only UTF-8 is read, and a file cut at any byte is never read as something else", "statement": "The bytes of a file are taken for a text exactly when they are UTF-8 in its shortest form with no surrogates, and each text has exactly one such spelling. Anything else, for instance one byte of a Latin-1 file, makes every reader give an error of the system, also when any kind is asked for; a byte order mark at the beginning makes a file of no kind. When a file that was read as a footprint, board or table loses its last bytes, a cut inside a character gives an error of the system, a cut that loses more than white space gives a syntax error (or 'unknown kind' when any kind was asked for), and otherwise the same thing is read. Of a library only the first symbols are then read, of a schematic the first elements and at most one changed thing. A save that the system stops after any number of bytes leaves a file that opens as what was saved, as what it gave before, or as an error.", "quantifier": "all byte sequences, all texts, all positions of the cut, all kinds asked for, all footprints, boards, libraries and schematics, all answers of the system", "why_tests_cant": "A test cuts a few files at a few places, and rarely inside a character of more than one byte.", "anchors": ["src/util.rs:10-18 read_file", "src/util.rs:21-43 write_file", "src/lib.rs:137-177 read_kicad_file", "src/lib.rs:204-213 write_layout write_module"]}
{"id": "C108", "title": "The characters of a saved file", "statement": "Every character of a saved footprint, board or footprint library table stands in one of its texts (or, on a board, in a tree that is kept as it is) or is one of the 72 that the program writes of its own: letters, digits, ampersand, star, minus, dot, underscore, blank, parentheses, newline and quote. No tab, carriage return or backslash comes from the program. Texts of characters below 128 give files of one byte per character. For schematics and symbol libraries the same holds with letters, digits, minus, dot, colon, dollar, number sign, tilde, blank, quote, tab and newline.", "quantifier": "all footprints, boards, tables, schematics and symbol libraries, all rules for putting words in quotes, all levels of nesting at the start", "why_tests_cant": "It is a statement about all characters of all outputs; a test looks at the characters of one.", "anchors": ["src/footprint/ser.rs all", "src/layout/ser.rs all", "src/fp_lib_table.rs:43-90", "src/formatter.rs:280-380", "src/schematic.rs:205-223", "src/symbol_lib.rs:261-271"]}
{"id": "C109", "title": "What is proved of texts does not depend on how a backslash is read", "statement": "Let a reader take a backslash between quotes and the character after it for anything at all. It reads every text without a backslash between quotes as the modelled reader does; so a footprint, board or table without backslashes that was saved is read as it was, and a beginning of a footprint is refused. What stands between two quotes is one word exactly if no quote in it is without a backslash before it and no backslash is left over, and the word is what the characters and pairs stand for. A file with backslashes comes back if each word that is put in quotes stands for itself. For the reader that keeps the pair every word that can stand between quotes stands for itself, and it reads and writes back the board with an escaped quote of the test suite.", "quantifier": "all texts, all meanings of a backslash pair, all quoting rules, all footprints, boards and tables", "why_tests_cant": "The behaviour of the dependency on a backslash is only seen in two test files; the theorem covers every behaviour.", "anchors": ["src/footprint/mod.rs:19-23", "src/layout/mod.rs:16-31", "src/fp_lib_table.rs:92-103", "tests/data/layout1.kicad_pcb:1114", "tests/layout1.rs"]}
{"id": "C110", "title": "The order of lines in a schematic matters only within one kind", "statement": "Moving the lines of a component leaves what is read unchanged as long as the F lines keep their order among themselves, and the AR lines theirs; unknown lines may be added and dropped, and of several name, unit, position or orientation lines only the last counts. The same holds of the lines of a sheet, whose labels keep their order. Between sections, sheets, elements and the description can change places, a line $EndSCHEMATC may stand anywhere and does not end anything, and the last description counts. The order of fields is seen.", "quantifier": "all schematic texts that are read, all sequences of such moves", "why_tests_cant": "A test file has one order, the one KiCad writes; files merged by version control or made by other programs have others.", "anchors": ["src/schematic.rs:1278-1298", "src/schematic.rs:1373-1394", "src/schematic.rs:1501-1562"]}
{"id": "C111", "title": "The order of lines in a symbol, and symbols as KiCad writes them", "statement": "Moving the field lines or the drawing lines of a symbol in a library moves the fields or drawings and changes nothing else. The comment line before the symbol and the list of footprints do not count: any other comment or list, or no list, gives the same symbol, so the list is lost when the library is saved. A symbol with an alias line before its list of footprints, the order in which KiCad writes them, is refused whatever else the library holds, with the complaint that DRAW was expected and $FPLIST found.", "quantifier": "all symbol library texts, all positions of the symbol, all lists of footprints", "why_tests_cant": "The test library has aliases but no list of footprints, so neither the skipping nor the order of the two is tested.", "anchors": ["src/symbol_lib.rs:660-728"]}
{"id": "C112", "title": "A footprint file can be pasted into a board file", "statement": "Put the text of a footprint file (white space around it included) between two entries of a board file, or in front of its last parenthesis. The result is read exactly if the board file and the footprint file are both read alone. It is then read as the same board, with the footprint of that file between the elements that stand before and behind the place, and the heading unchanged. The text of any other list whose name is no entry of boards (a whole board, say) is kept there unread. The same holds for the text of an element in a footprint file and for a row in a library table. If the board survives saving and opening, then with the footprint put in it does so exactly if the footprint alone survives it; if no other footprint of the board has its reference, looking the reference up gives the footprint unchanged.", "quantifier": "all board, footprint and table texts, all places between entries, all footprints, boards and references, all quoting rules that meet the contract", "why_tests_cant": "Every place in every board with every footprint file; that the place does not matter is no matter of examples, since white space, quotes and words next to the place could run together.", "anchors": ["src/layout/de.rs:462-527", "src/footprint/de.rs:442-453", "src/fp_lib_table.rs:65-89", "src/layout/data.rs:697-717"]}
{"id": "C113", "title": "The order of the entries within an element is fixed, except where it is free", "statement": "In texts, polygons, lines, circles, arcs and models of footprints, and in the general section, texts, lines, arcs, circles, segments, vias and dimensions of boards, the entries that are lists have one fixed order and none of them may stand twice; the same holds for effects, fonts, drills, keepouts and fills, for the beginning of a zone up to its fill, the first five entries of a library row and the entries of a pad up to its layers. Of all orders of the same entries at most one is read; only points can change places. The parts of a pad after that and the values of a net class can be in any order, and if none stands twice the same is read, up to the order of the nets. A line of a footprint with its end before its start is read without complaint and loses both points.", "quantifier": "all lists of entries, all orders of them", "why_tests_cant": "The refused orders are all permutations of up to eleven entries with any content; a test tries a few.", "anchors": ["src/footprint/de.rs:213-385", "src/layout/de.rs:87-102", "src/layout/de.rs:173-226", "src/layout/de.rs:259-460", "src/fp_lib_table.rs:73-89"]}
{"id": "C114", "title": "What the logger is told", "statement": "Reading a board gives exactly one log record for each part of it that is kept without having been understood, in the order of the board: an element of an unknown name, or what is left at the end of a zone. So nothing is logged exactly if everything was understood. A board that cannot be read gives the records of the entries before the first one that cannot be read. A file found to be of another kind gives none; a board gives its records whatever was asked for, unless a footprint or a schematic was, and gives the same ones after it has been saved. The programs dump_layout and adjust_layout log these records first and then the name of the file, or abort after the records; the rule checkers log their findings only. Fixing a footprint logs one line if it adds a courtyard, with the corners of the lines it adds, and none otherwise.", "quantifier": "all texts, file systems, arguments, boards and footprints, all ways to show a tree as text", "why_tests_cant": "The records go to a logger that the tests do not set up; nothing compares them with the board.", "anchors": ["src/layout/de.rs:253-257", "src/layout/de.rs:347-365", "src/layout/de.rs:462-527", "src/lib.rs:138-177", "src/footprint/data.rs:1723-1763", "src/bin/dump_layout.rs:11-23", "src/bin/adjust_layout.rs:12-25"]}
{"id": "C115", "title": "What a build without overflow checks does", "statement": "In a release build the sums of schematics wrap around instead of stopping the program. Wherever the checked build finishes, both give the same. The number of a new field is what 64 bits leave of the largest number plus one; it is already taken exactly if both the largest and the smallest 64 bit number are in use, so numbers stay distinct while there is room above, and need not otherwise. Lookup by name is right in any case, but a wrapped number makes the name disappear from the file. The box of a sheet has the wrapped edges, which is the true box whenever that fits, even where the checked build stops.", "quantifier": "all components, edit histories, schematics and sheets with any integers", "why_tests_cant": "Tests run in a debug build and no test file has numbers near 2^63.", "anchors": ["src/schematic.rs:35-47", "src/schematic.rs:200-202", "src/schematic.rs:495-503", "src/schematic.rs:548-582", "src/schematic.rs:828-837"]}
{"id": "C116", "title": "The box of a moved board is the moved box", "statement": "Adjusting a board by an offset adds the offset to its bounding box. For lines, arcs, texts, dimensions, tracks and zones this is exact, as the machine adds, for any finite numbers. For all elements with coordinates up to a hundred metres, including circles, vias and footprints, each side is right up to 1/400 mm, and width and height change by at most 1/100 mm. What the program adjust_layout prints is a board whose box lies 100 mm to the right. It need not be exact for vias, and a footprint without a place does not move.", "quantifier": "all boards, elements and offsets with finite numbers (exact part) or numbers up to 100000 mm (approximate part)", "why_tests_cant": "Rounding depends on the numbers; a test can only compare a few boards.", "anchors": ["src/layout/data.rs:93-123", "src/layout/data.rs:351-363", "src/layout/data.rs:448-470", "src/layout/data.rs:586-634", "src/layout/data.rs:868-901", "src/footprint/data.rs:189-196", "src/footprint/data.rs:240-266"]}
{"id": "C117", "title": "The rules do not depend on where a footprint lies", "statement": "Moving, turning and flipping a footprint any number of times leaves the findings of the rule check unchanged. A footprint with a courtyard can be moved before or after fixing with the same result, and turned and flipped too if it has a text for the second reference. A courtyard that is drawn is the same wherever the footprint lies, up to 1/200 mm, if the size is not right at the 2 mm limit. A new courtyard is always on the front, so fixing a flipped footprint is not flipping the fixed one.", "quantifier": "all footprints, configurations, histories of moves, turns and flips; for the courtyard, coordinates up to 100000 mm", "why_tests_cant": "Tests check footprints where they were drawn.", "anchors": ["src/footprint/data.rs:189-196", "src/footprint/data.rs:262-282", "src/footprint/data.rs:375-423", "src/footprint/data.rs:1383-1763"]}
{"id": "C118", "title": "The order of the elements does not matter", "statement": "However the elements of a footprint are ordered, the rule check reports the same findings if there is at most one text of each kind, fixing gives the same footprint up to the order if it also has a courtyard or one place and finite coordinates, and the box is the same if there is at most one place. The box of a board, renaming a net, and finding and changing a footprint whose reference occurs once do not depend on the order of the board's elements either; the box, renaming and moving also not on the order within its footprints. With two texts of one kind or two places the order matters.", "quantifier": "all footprints and boards, all permutations of their elements, all configurations, names and changes", "why_tests_cant": "Tests read elements in the order the program writes them.", "anchors": ["src/footprint/data.rs:39-127", "src/footprint/data.rs:200-260", "src/footprint/data.rs:1383-1763", "src/layout/data.rs:624-754"]}
{"id": "C119", "title": "What the logger is told about bounding boxes", "statement": "Computing the box of a footprint logs nothing, that of a board logs one record for each text and each dimension, that of a schematic one for each element, in order. A footprint fix that adds a courtyard logs the box and the place of the footprint as it was, the corners seen from the place, and the corners it draws, which lie outside them by one of the three distances; a fix that adds none logs nothing.", "quantifier": "all footprints, boards, schematics and configurations, any text for numbers", "why_tests_cant": "Tests do not look at the log.", "anchors": ["src/footprint/data.rs:240-260", "src/footprint/data.rs:545-551", "src/footprint/data.rs:1723-1753", "src/layout/data.rs:357-362", "src/layout/data.rs:513-526", "src/schematic.rs:35-47", "src/schematic.rs:361-375", "src/schematic.rs:433-438"]}
{"id": "C120", "title": "The order of drawings, fields, components and sheets does not matter", "statement": "A symbol with its fields and drawings in another order gets the same findings up to their order and is a power symbol or a drawing if it was one. A component with its fields in another order answers the same for a name used once, gets the same number for a new field, and is changed in the same way. A schematic with its elements and sheets in another order has the same components here and in its sheets, the same box, or panics computing it, and finds and changes the same component when the reference is used once. Setting the name of a symbol does depend on the order, and so do names and references used twice.", "quantifier": "all symbols, components, schematics, files and orders", "why_tests_cant": "Tests have one order of everything; the number of orders is without limit.", "anchors": ["src/symbol_lib.rs:248-258", "src/symbol_lib.rs:292-300", "src/symbol_lib.rs:303-329", "src/symbol_lib.rs:1084-1117", "src/schematic.rs:460-582", "src/schematic.rs:153-171", "src/schematic.rs:174-197", "src/schematic.rs:35-47"]}
{"id": "C121", "title": "Edits of names move nothing and break no other rule", "statement": "Changing the names of nets, even by an update that fails midway, changes nets only: every box stays, every footprint gets the same findings, and fixing it gives the same up to the nets. Another reference changes no box and at most the first finding of a footprint, and with one text for the reference a fix gives the same as before. Adding nets and net classes, editing fields, references and names of components and counting sheets keep the boxes of boards and schematics.", "quantifier": "all footprints, boards, schematics, names and update functions", "why_tests_cant": "Tests rename one net of one board and do not compare boxes or findings before and after.", "anchors": ["src/layout/data.rs:648-683", "src/layout/data.rs:731-792", "src/footprint/data.rs:155-165", "src/footprint/data.rs:209-215", "src/footprint/data.rs:240-260", "src/footprint/data.rs:1384-1763", "src/schematic.rs:87-120", "src/schematic.rs:200-202", "src/schematic.rs:515-582"]}
{"id": "C122", "title": "The box of a whole is the union of the boxes of its parts", "statement": "The bounding box of two parts of a board together is the union of their boxes, and the box of a board covers that of any selection of its elements; the same holds for parts of a footprint at one place. Fixing a footprint keeps its box whatever courtyard it draws, and so does any element that is no pad, no place and not on a fabrication layer. Both fail for vias of negative size and for schematics, where a further component can make the box smaller.", "quantifier": "all boards with finite coordinates and sizes not negative, all splits and selections, all footprints", "why_tests_cant": "Tests compute the box of single boards and never compare it with the boxes of parts or before and after a fix.", "anchors": ["src/layout/data.rs:107-122", "src/layout/data.rs:592-635", "src/layout/data.rs:885-903", "src/footprint/data.rs:240-260", "src/footprint/data.rs:449-478", "src/footprint/data.rs:1648-1763", "src/schematic.rs:35-47", "src/schematic.rs:361-375"]}
{"id": "C123", "title": "Exactly what the box of a schematic is", "statement": "The box of a schematic whose numbers are whole and at most 2^53 is exactly: the smallest left and top and the greatest right and bottom edge of its components and sheets, put the right way round at the end, where the left edge of a component is its y. So it is known exactly which points are in it, and a schematic without sheets has all its components in its box exactly if the y of one of them is at most the x of all, or all have the same x.", "quantifier": "all schematics with coordinates up to 2^53", "why_tests_cant": "Tests have one or two components; the mistake in the left edge shows only for some places of several.", "anchors": ["src/schematic.rs:35-47", "src/schematic.rs:361-375", "src/schematic.rs:433-438", "src/schematic.rs:828-837", "src/lib.rs:286-322"]}
{"id": "C124", "title": "The rules do not depend on where a symbol is drawn", "statement": "Symbols that differ in where and how their fields, rectangles and pins are drawn, in their aliases, units and offsets, get the same findings apart from the text of the part, as long as their pins are on the grid alike; if only pins are elsewhere the findings are the same. So shifting all pins by multiples of the grid and mirroring them changes no finding, and for a single pin the grid is exactly what matters of its place. Shifting by half the grid and turning do change findings.", "quantifier": "all symbols, all places", "why_tests_cant": "Tests check a few symbols at fixed places and never compare the reports of two drawings of one symbol.", "anchors": ["src/symbol_lib.rs:855-938", "src/symbol_lib.rs:940-1039", "src/symbol_lib.rs:1040-1060", "src/symbol_lib.rs:1062-1117"]}
{"id": "C125", "title": "Files tell documents apart", "statement": "If a footprint, board, table, schematic or symbol library survives saving, then no other one that survives saving is written as the same text; whoever has the same file is the same document or does not survive saving itself. Documents that do not survive can share a file with another: a rotation of -0 is not written, and one element of two lines is written as two elements are.", "quantifier": "all pairs of documents, all quoting rules and levels", "why_tests_cant": "Tests save single documents and never compare the files of two different ones.", "anchors": ["src/footprint/ser.rs", "src/footprint/de.rs", "src/layout/ser.rs", "src/layout/de.rs", "src/fp_lib_table.rs", "src/formatter.rs", "src/schematic.rs:205-1127 Display impls, 1129-1565 parse", "src/symbol_lib.rs: Display impls and parser"]}
{"id": "C126", "title": "Saving changes neither boxes nor reports nor later edits", "statement": "If a footprint file is opened, saved and opened again, saving may have changed the footprint, but its box is the same number by number, and so is the box of a board. The rules report the same unless a font has a size that is below zero or no number. Any sequence of edits (turn over, turn, move, rename the reference or a net, fix, add an element) makes footprints with the same file and box of both, so it does not matter whether a footprint is saved before it is edited. The same holds for boards (moved, net names changed by any function, one footprint edited, nets, net classes and setup values added), with the same errors for the same edits. So the programs dump_footprint, dump_layout, adjust_layout and (if the fonts count) klc_kicad_mod print the same about a file and about the file saved over it. With a font of negative width a finding is gone after saving.", "quantifier": "all files that can be opened, saved and opened again, all quoting rules, levels and settings", "why_tests_cant": "Tests check and fix footprints as read, never again after saving, and use no number that saving changes.", "anchors": ["src/bin/klc_kicad_mod.rs", "src/bin/dump_footprint.rs", "src/bin/dump_layout.rs", "src/bin/adjust_layout.rs", "src/footprint/data.rs:240-260", "src/footprint/data.rs:1135-1149", "src/footprint/data.rs:1384-1646", "src/footprint/data.rs:1648-1763", "src/footprint/ser.rs", "src/footprint/de.rs", "src/layout/data.rs:624-633", "src/layout/data.rs:616-633", "src/layout/data.rs:657-683", "src/layout/data.rs:731-790", "src/layout/data.rs:853-866"]}
{"id": "C127", "title": "It does not matter when a document is saved while it is edited", "statement": "Open a footprint or board that can be saved and opened again, then edit it any number of times, saving and opening it again at any moments between the edits. No save makes the work fail; the edits report the same errors; and the file and the box at the end are those of the edits without any save. Every history of edits and saves of a schematic that survives saving ends well, and in a schematic that edits alone lead to. So does every history of renamings and saves of a symbol library that survives saving. New texts must hold no quote: with a quote in a new reference the saved file cannot be opened.", "quantifier": "all files that can be opened, saved and opened again, all sequences of edits and saves, all quoting rules and levels", "why_tests_cant": "Tests save a document once, at the end; the number of ways to put saves between edits has no bound.", "anchors": ["src/footprint/data.rs:1384-1646", "src/footprint/data.rs:1648-1763", "src/layout/data.rs:616-633", "src/layout/data.rs:657-683", "src/layout/data.rs:731-790", "src/layout/data.rs:853-866", "src/footprint/mod.rs", "src/layout/mod.rs", "src/schematic.rs"]}
