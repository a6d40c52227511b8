# Formal model of liton_point_data: design

Sources: `/repo/scr` (C++), read as text only.  Model and proofs: `rocq/theories`
(Coq 8.16.1, standard library only).  Properties: `properties.jsonl`.  Which theorem
proves which property: `MANIFEST.json`.  Wrong programs tried against the theorems:
`seeded/LOG.jsonl`.

## 1. What is modelled

| C++ | model |
|---|---|
| 32-bit `int` / `unsigned` arithmetic | `Base.v`: `Z` with explicit range checks. Signed overflow is the outcome `UB`; unsigned arithmetic wraps mod 2^32; the casts are explicit functions |
| exceptions, undefined behaviour | results `Ok / Err / UB`, stateful results `Ret / Thr / Undef`. `Thr` keeps the state, so "throws and changes nothing" is a statement about the state |
| memory | `M_Heap.v`: a list of heap blocks, each a list of cells (`uninitialised`, value or pointer), deletable; pointers are block+offset; allocation may fail according to an arbitrary oracle. Access outside a live block, arithmetic outside `[0,len]`, delete of anything but a live block start are `UB` |
| `_CHECK_POINTDATA_RANGE` | a boolean parameter `chk` of every function that contains the `#ifdef` |
| element type, number of components `_N`, locations `LOC*` | parameters |
| `for (int i=b; i!=e; ++i)` | `M_Loop.v`: a loop function which, for `b>e`, runs to `INT_MAX` and then is `UB` |
| `PointData.hpp` flags, regions, `flra`, `PD_For_N`, `PD_Reduce_N` | `M_Flags.v`, `M_Loop.v` |
| `RangeT`, `SizeT`, `PD_For_*`, `PD_Reduce_*` in 1D/2D/3D | `M_RS1.v`, `M_RS2.v`, `M_RS3.v` |
| `PointData<_NUMT,_N,...>` 0D/1D/2D/3D | `M_PD0.v` ... `M_PD3.v`: one model per dimension, written function by function like the source (they are separate classes in the source) |
| client programs | `M_Class.v` (the three classes behind one interface), `M_World.v`: any number of arrays of any of the three classes in one memory; a program is a list of calls of the member functions, `read_plt` included (each such call comes with the files it finds) |
| bytes, IEEE numbers, printf conversions | `M_Bytes.v` |
| `ordered_tec`: zone sizes, sampling, min/max | `M_TecZone.v`, on byte buffers and bit patterns |
| `ordered_tec`: writing the `.plt` file, its log, JSON/XML/echo texts, auxiliary data, echo modes | `M_TecFile.v`, byte for byte |
| what `write_plt(echo)` prints on the screen | `M_Screen.v` |
| the files of logs: `write_echo()`, `write_json(depth)`, `write_xml(depth)` of `TEC_FILE_LOG` and `TEC_ZONE_LOG`, with an `int` depth, and programs of such calls, `write_plt` and `read_xml` over one set of files; a file is known by one path, writing to an open file never fails | `M_LogFiles.v` |
| `TEC_DATA` with its pointer (`ordered_tec.h:169-180, 495-559`), and `write_plt` of a description whose data are the memory of the arrays at that moment; elements are blocks of bytes of one length, those never assigned have arbitrary bytes | `M_Output.v` |
| `read_plt` of the three classes | `M_Read.v` |
| `sscanf` with `%d`, `%u`, `%lf`, and `strtol` | `M_Scan.v`, with correct rounding |
| `get_auxiliary_data` into `double`, `int`, `unsigned`, `std::string` variables; `operator>>` of libstdc++ | `M_Extract.v` |
| texts: `what()` of the exceptions of PointData, `disp()` of `RangeT`, `SizeT`, `PointData`; characters of `disp_data()` for `int` (PointData_0D/1D/2D/3D.hpp) | `M_Texts.v` |
| TinyXML2: parsing a text to a tree, queries of elements, texts and attributes | `M_Xml.v` |
| TinyXML2: the printer and SaveFile | `M_XmlPrint.v` |
| client code: loops and reductions whose bodies read and assign elements | `M_Client.v` |
| the numerical parts of `test/Example_D1_heat`, `Example_D2_heat`, `Example_D1_integration`; `liton_sp::debug::exec_time` without the clock | `M_Examples.v`; the arithmetic is given by functions, the number of time steps is a parameter |
| the loop that sets `Max`, `Begin`, `End` of a zone from an array (`test/Test_D*_tecfile`) | `M_Describe.v` |
| `write_xml` files, `load_xml`, `TEC_FILE_LOG::read_xml`, `TEC_ZONE_LOG::read_xml` | `M_ReadXml.v` |
| `test/Example_D2_heat/Example_D2_heat.cpp:45-123` with its Tecplot file: the arrays, the description of the zone and the TEC_DATA taken before the computation, the computation, set_echo_mode, write_plt and write_xml | `M_HeatFile.v` |
| The characters of `disp_data` for any element type; `operator<<` of a fresh `std::ostringstream` for `double` and `float` (`%.6g`) | `M_Print.v` |
| a client program with copy_from between neighbours (not in /repo) | `M_Ring.v` |
| a client program with exchange of ghost points in 1, 2 or 3 dimensions (not in /repo) | `M_Torus.v` |
| PointData.hpp: reducer macros at `float` and `double` (`PD_RF_MAX`, `PD_RF_MIN` and the `_ABS` versions) | `M_Reduce.v` |
| addition of `double` on bit patterns; `PD_RF_SUM(double)`, `PD_RF_SUM_ABS(double)` | `M_FSum.v` |
| `liton_sp::xml::check_xmlnode`, `get_xmlnode`; clients that look up paths and query the node | `M_Case.v` |
| `PD_RF_PRO(double)`, `PD_RF_PRO_ABS(double)`; multiplication and division of `double`; `liton_sp::debug::exec_time` | `M_FMul.v` |
| `test/Example_D1_integration` with the arithmetic of `double`, `pow` a parameter | `M_Integral.v` |
| the time loop of `test/Example_D1_heat`, `Example_D2_heat` with the arithmetic of `double`, and the constants it depends on | `M_TimeLoop.v` |
| the right hand sides of `test/Example_D1_heat` (lines 57, 60) and `Example_D2_heat` (lines 90-91, 94, 97, 100) with the arithmetic of `double` on the elements | `M_HeatD.v`, `M_HeatD2.v` |
| `liton_sp::debug::exec_except` (`lion_snippets.hpp:120-136`), programs made of calls of it | `M_Except.v`; time and random number of the stamp are parameters |

Not modelled: multithreading, locales other than "C" and changed formats of streams (`operator<<` of a `double` is `%.6g`), the wall clock (the texts and the time it gives
are parameters), `liton_sp::env`, the editing part of TinyXML2, sums and products at `float` (`PD_RF_SUM`, `PD_RF_PRO`), Windows only branches,
fused multiply-add and extended precision (every operation of `double` is rounded to nearest on its own).  `fwrite` never
fails in the model (the source ignores its result); opening the file and every
allocation may fail.

Simplifications that could matter are said at the definition they concern.

## 2. Trusted base

* Coq's kernel (8.16.1), and `coqchk` for the compiled files.
* `Print Assumptions` is printed below each property theorem.  The answer is `Closed
  under the global context` for every one of them: no axioms, neither own nor from a
  library.  (The axioms the gate counts are declarations of the standard library's
  `ssreflect` plugin files which are loaded with `Lia`/`Zify` but used by no theorem.)
* The reading of the C++ sources into Gallina.  Each definition of the model cites
  the file and lines it models and says where it simplifies.
* The memory model: object lifetime and pointer rules as above; reading an
  uninitialised element as a value that is only copied is permitted (for arithmetic
  types the C++ program's copy of an indeterminate value is formally UB for most
  types, but copying whole arrays is what `copy_from` and `write_plt` do by design);
  printing one is `UB`.
* The platform: `int`/`unsigned` 32 bits, two's complement casts (implementation
  defined before C++20, universal in practice), `size_t` and `long` 64 bits, 8 bit signed
  `char`, little endian, IEEE 754 `float` and `double`, `what()` of `bad_alloc` as in
  libstdc++, `nan`/`inf` printed and scanned as in the GNU C library, the "C" locale.

## 3. How a property is stated

Files: `Base.v`; `M_*.v` model; `Spec*.v` vocabulary of the statements, which does not
use how the code computes; `L_*.v` lemmas; `P_*.v` property theorems, each closed by
`exact`, followed by `Print Assumptions`, with an `Example` showing that its
hypotheses are met by something non-trivial.

Properties that are false as a user would hope are stated with the exact guard, and a
`_refuted` theorem with a concrete witness shows that the guard is needed.

| id | statement uses | proof |
|---|---|---|
| C01 | boxes as lists of faces, regions (`Spec.v`) | closed forms of the `SizeT` functions (`L_RS.v`), case analysis and linear arithmetic over all shapes |
| C02, C03 | membership of points in boxes | equivalences per dimension; without non-emptiness refuted |
| C04 | faces before and after | closed forms; composition laws |
| C05 | slots that exist | iff with slot membership |
| C06, C07 | reflection, translation | linear arithmetic |
| C08 | conversions | case analysis (finite types) |
| C09 - C13, C19 | abstract machine `Spec_Hist.v` (arrays are maps), reached states (`Spec_Reach.v`) | representation invariant of each class (`L_PD1/2/3.v`: pointer tables in the heap hold the row-major addresses), one relation for all classes (`L_Kind.v`), simulation of every call for every failure pattern (`L_World.v`, `L_ReadCall.v`, `L_Sim.v`), induction on the program |
| C14 | the same call with and without checks | lock-step simulation function by function (`L_Mode.v`), then induction |
| C15 - C18, C20 | `alloc`, `clear`, `realloc` with an allocation oracle | consequences of the simulation (`L_Life.v`, `L_Wrap.v`); leaks and half-made arrays of 2D/3D by witness and in general |
| C21 - C23 | list of points of a box (`Spec_Loop.v`) | loop = run over the list, by induction; divergence/UB for inverted ranges |
| C24 - C28 | which slots change and to what | loop invariant over the copied slots (`L_Copy.v`), then reachable states (`L_Copies.v`) |
| C29, C30 | printed tokens; 0D maps | loop = run over the list; induction on programs |
| C31, C32 | sampled indices and blocks (`Spec_Tec.v`) | division lemmas, loop invariants over byte buffers (`L_TecZone.v`) |
| C33 | least and greatest element by value | induction on pairs (`L_TecMin.v`) |
| C34, C35, C40 - C42 | an independent reader of the layout and an independent description of the log (`Spec_Plt.v`) | every outcome of `write_plt` described (`L_TecWrite.v`, `L_TecFile.v`, `L_TecWhole.v`), the reader inverts the layout (`L_Plt.v`), lengths of formatted numbers (`L_Text.v`, `L_TecText.v`) |
| C36, C37, C47 | logs (`Spec_Log.v`), points of the arrays before and after (`Spec_Read.v`) | outcome of `read_plt` for every well-formed log (`L_ReadCall.v`, `L_Read.v`), the value stays through the rest of the program (`L_ReadKept.v`), logs of `write_plt` are well-formed (`L_ReadLog.v`), both together (`L_Round.v`) |
| C43 - C46 | logs compared field by field, texts by their characters (`Spec_Xml.v`) | the written text is a sequence of elements and the parser gives back exactly that tree (`L_XmlSeq.v`, `L_XmlText.v`), scanned numbers are near the printed ones (`L_ScanF.v`, `L_Near.v`), read_xml on that tree (`L_XmlLog.v`); what the parser does on a text it does on every extension of it (`L_XmlCut.v`) |
| C38, C39 | finite maps, bit patterns (`Spec_Aux.v`) | induction on insertions; case analysis on texts |
| C48, C49 | elements and what they hold (`cell`), which elements are assigned before a point (`Spec_Client.v`) | Hoare rules over the abstract machine of C13 (`L_Client.v`), the loop as a run over the sorted list of points, induction with the set of assigned elements |
| C50 - C52 | the time step as an operator on functions (`heat_step`), iterated; sums as folds (`Spec_Client.v`) | the same rules, one per loop of the program, invariant of the time loop (`L_Examples.v`) |
| C53 | two programs (`Spec_Reach.v`), a file and a log between them | C36, C43 and C47 put together; a log read back is the same to `read_plt` (`L_Restart.v`) |
| C54 | the sizes of the array, last dimension first (`Spec_Describe.v`) | closed forms of `size`, case analysis on dimensions (`L_Describe.v`) |
| C55 | runs of calls (`Spec_Aux.v`), first words, numbers of six decimals (`Spec_Extract.v`) | rounding a decimal that is a `double` gives that `double` (`round_f64_exact`), C43's scanning lemmas, induction on texts (`L_Extract.v`) |
| C56 | texts as words and decimal numbers, `tells` (`Spec_Texts.v`) | a printed number followed by a non-digit can be read off (`fmt_app_inj`); texts are taken apart from the left (`peel`); C09 for the message; C29 for disp_data (`L_Texts.v`) |
| C57 | a reader of JSON after RFC 8259, without `\u` escapes; `says_file` lists the members (`Spec_Json.v`) | texts as values, elements or members read to their end, or not at all (`JT`, `EL`, `MB` in `L_Json.v`); printed numbers as in C43; C40 for the places of the zones (`L_JsonLog.v`) |
| C58 | `write_plt` once more with its `printf`s, the printed text in front of the state (`M_Screen.v`); the lines of the flags (`Spec_Screen.v`) | the two runs step by step beside each other (`tr`, `says` in `L_Screen.v`), then the lines of the model are those of the specification and C40's places hold the zones' lines (`L_ScreenLog.v`) |
| C59 | `do_call`, `do_calls` (`M_LogFiles.v`): files by path, logs by number, exceptions caught; forms, names, targets of calls (`Spec_LogFiles.v`) | each call is local to its file and log (`step_frame`); every log a program can have reserves no more places than it has zones (`reached_printable`, from C40 and `gen_texts`); then C43 for the log read later, and the parser run on a document with a `Zone` (`L_LogSession.v`) |
| C60 | `ref_of`, `pointee`, `fill`, `write_refs` (`M_Output.v`) over the worlds of C09-C20; `frees`, `encodes`, `plenty` (`Spec_Output.v`) | an array's object is unchanged by calls that do not free it (`step_find`), so its block is the same and has the elements of that moment (`pointee_image`); round trip from C36; deleted blocks stay deleted in every run (`exec_later`, `L_Dead.v`); a zone with a variable without memory cannot return (`nret`) nor throw (`nthr`), both rules over the text of write_plt (`L_Output.v`) |
| C61 | as C53 and C60; moves (`Spec_Move.v`) | induction over the loads: each is C36 in a reachable state (`load_one`), the next ones leave its slots alone since they go to other components (`all_moved_cons`, `L_Move.v`); the registered components by C60 |
| C62 | `heat2_file` (`M_HeatFile.v`), `has_values` (`Spec_HeatFile.v`) | C51 in Hoare style with the history of calls, none of which frees memory (`tame`, `L_Client.v`); so by C60 the pointers taken before stay good; the file by C30-C41, its log by C59, the load by C36 and C44 (`L_HeatFile.v`) |
| C63 | `fmt_g`, `fmt_gf`, `render_as` (`M_Print.v`), `close`, `literal` (`Spec_Print.v`) | the digits of `gen_pair` are the nearest six-digit decimal (`gen_spec`), what they read as by `round_f64_spec` of C46; a decimal of six digits is the one near its double (`gen_pair_at`); texts between commas are determined (`comma_cut`) (`L_Print.v`, `L_PrintData.v`) |
| C64 | `load_text` (`M_Xml.v`), `read_xml` (`M_ReadXml.v`); `document`, `edit` (`Spec_XmlDoc.v`) | induction over the layout: the parser pushes the nodes one by one (`content_parse`, `L_XmlDoc.v`); induction over the edits: what is looked up is the same or again edited (`edit_view`), then reader by reader (`L_XmlEdit.v`) |
| C65 | `ring` (`M_Ring.v`) on `call`, `get`, `set` (`M_Client.v`); `circle` (`Spec_Ring.v`) | what a copy between ghost and interior points does to the store, in any dimension (`ht_link`, `L_Link.v`); induction over the arrays (`join_ok`, `advance_ok`) and over the passes (`L_Ring.v`) |
| C66 | `torus` (`M_Torus.v`) on `call`, `get`, `set` (`M_Client.v`); `torus_field`, `grid_ok` (`Spec_Torus.v`) | the regions of the exchanges by induction over the directions (`neighbour`, `tags_split`, `tags_apart`, `L_Grid.v`); what is filled after each direction (`exchange_ok`, `exchanges_ok`), then induction over arrays and passes (`L_Torus.v`) |
| C67 | `exec_except`, `session` (`M_Except.v`); `a_session`, `writes`, `kept` (`Spec_Except.v`) | simulation of each statement by the abstract machine (`stmt_ok`, `block_ok`, `session_from`); equal arrays give equal runs (`step_same`, `kept_run`); the streams are cut at `]` and at line ends and the messages are injective (`writes_inj`, `L_Except.v`) |
| C68 | `read_xml`, `load_xml` (`M_ReadXml.v`); `file_says`, `log_short` (`Spec_Doc.v`) | each step of reading is an equivalence with what the element says (`text_of_ok`, `int_of_ok`, `v3_of_ok`, `aux_ok`, `data_of_ok`, `L_Doc.v`), no step throws (`nerr_core`); `again` puts the log read through the parser theorem of C43 |
| C69 | `xml_file`, `read_log` (`M_ReadXml.v`), `fmt_le`, `fmt_lf`, `scan_double`; `rewritten`, `settles` (`Spec_Settle.v`) | `le_again`: the double nearest to a seven-digit decimal is closer to it than half of its last digit, also for subnormals (`L_Settle.v`); logs that print alike have the same texts and the same element tree (`alike_xml`, `alike_node`, `L_Rewrite.v`), so the second round reads what the first read |
| C70 | `save`, `visit` (`M_XmlPrint.v`), `load_text` (`M_Xml.v`); `writable_doc`, `tidy`, `usual`, `unmixed`, `indented` (`Spec_Save.v`) | `inner_all`: by induction over the nodes, for every state of the printer, what is written is a layout (`content` of C64) of the nodes (`L_XmlPrint.v`); `nodes_sound`: what the parser returns is writable (`L_XmlShape.v`), in particular the end mark of a comment does not arise from the treatment of line ends; logs: `own_log` (`L_Save.v`) |
| C71 | the 13 `PD_Reduce` functions, `RF_*` (`M_Loop.v`), `RF_*_fp` (`M_Reduce.v`); `reduction`, `sums_fit`, `greatest`, `least` (`Spec_Reduce.v`) | every call is the fold `outcome` (C23); inductions over the list of values; the sign bit gives the negative number (`fnum_flip`) (`L_Reduce.v`) |
| C72 | `dadd`, `RF_SUM_f64`, `RF_SUM_ABS_f64` (`M_FSum.v`); `close`, `in_bounds`, `stand_for` (`Spec_FSum.v`) | one addition: `round_f64_tight`, `representable` (`L_FSum.v`) on top of the rounding lemmas of `L_ScanF.v`, and `dadd_nearest` from `round_f64_nearest` (`L_Nearest.v`); the sums by induction with the bound ((1+2^-53)^n - 1) times the size so far (`step_close`) |
| C73 | `get_xmlnode`, `walk`, `lookup`, `int_setting`, `double_setting` (`M_Case.v`); `first`, `leads`, `says_int`, `says_double`, `nearest`, `grown`, `more` (`Spec_Case.v`) | `walk` by induction on the path (`walk_says`); documents from C64 and C70; numerals by induction on their digits (`digits_run`), rounding by comparing with the grid of multiples of a power of two (`round_f64_grid`, `round_f64_nearest`); additions by induction on `grown` (`grown_first`, `more_leads`) |
| C74 | `dmul`, `RF_PRO_f64`, `RF_PRO_ABS_f64` (`M_FMul.v`); `within`, `product`, `tame` (`Spec_FMul.v`) | relative error of one rounding from the grid of C73 (`round_rel`, `dmul_rel`), then induction on the values (`mul_holds`, `fold_holds`); powers of 1 +- 2^-53 stay below a factor 2 (`up_half`, `down_half`); `dmul_nearest` from `round_f64_nearest` |
| C75 | `exec_time`, `ddiv`, `of_whole` (`M_FMul.v`); `passes`, `within` (`Spec_FMul.v`) | the loop by induction on `passes` (`loop_passes`), the sum by induction on the differences (`fold_within`), each operation within one rounding (`of_whole_within`, `div_within`, `add_within`) |
| C76 | `integral`, `abscissa`, `mean` (`M_Integral.v`); `within` (`Spec_FMul.v`) | C52 for the program; each abscissa within 2 roundings (`mesh_within`, `abscissa_within`), the sum by induction (`terms_within`); bounds of (1 +- 2^-53)^n (`near_half`, `above_half`), digits by `half_text` |
| C77 | `for_ever`, `dt1`, `dt2`, `heat1_run`, `heat2_run` (`M_TimeLoop.v`); `first_reach` (`Spec_TimeLoop.v`) | the sum of k steps by induction (`flow_within`), so a first k exists (`steps_exist`); the loop runs exactly k passes (`loop_counts`); C50 and C51 for the arrays; quotients of rounded numbers (`quot_within`) for dt; the numbers of the files by comparing bounds (`counts_exactly`, `within_lt`); digits by `tenths_pair` |
| C78 | `heat1`, `heat2` (`M_Examples.v`) at the type of rational numbers; `lapQ`, `advQ`, `lapyQ`, `heat_content` (`Spec_HeatQ.v`) | C50 and C51 for the programs; a step is a weighted mean (`mean_range`, `mean2_range`), iterated; the differences telescope (`inner_sum`, `step_content`) |
| C79 | `heat1`, `heat1_run` with `lapD`, `advD` (`M_HeatD.v`): the right hand sides of Example_D1_heat.cpp:57, 60 over `dmul`, `dadd`, `dsub` | C50 and `heat1_with` for the program; each operation is exact up to a relative 2^-53 (`dadd_near`) and one unit for products (`dmul_near`); a pass multiplies the bound by at most 1 + 2^-48 (`step_numbers`, `heatD_step`), iterated (`grow`, `iterD`); the constants and the number of passes from C77 (`consts1`, `few_passes`) |
| C80 | `heat2`, `heat2_run` with `lapD`, `lapyD`, `advD` (`M_HeatD.v`, `M_HeatD2.v`): Example_D2_heat.cpp:94, 97, 100 over `dmul`, `dadd`, `dsub`, and `fneg` for the minus sign of lines 90-91 | as C79 with two second differences: C51 and `heat2_with` for the program; `lapD_near` for one difference, `step2_numbers` and `heatD2_step` for a pass, `iterD2` for all passes; `consts2`, `few_passes2` for the constants and the number of passes. C79 and C80 take the operations as rounded one by one: a compiler that fuses a multiplication and an addition is outside the model |
| C81 | as C79 | C50 and `heat1_with` for the program; twice a number is a number (`twice_exists`), so every operation of a pass is exact by `dmul_nearest` and `dadd_nearest` (`uniform_step`), iterated (`uniform_iter`) |
| C82 | `heat1` over the rational numbers (`lapQ`, `advQ`) and over `double` (`lapD`, `advD`) | C50 for the program; the mirrored boundary values make a step commute with the reflection (`step_mirror`, `iter_mirror`); in `double` a witness (`C82_mirror_refuted`), its sums computed, its products by `dmul_exact` |

Every property is proved at full strength as stated in `properties.jsonl`; there are no
`_partial` theorems.

## 4. What the proofs found

* `is_overlap` is wrong for empty boxes (C02), `overlap` throws exactly when it says no (C03).
* Element counts wrap mod 2^32 in `alloc`: an array that large is silently too small (C20).
* 2D/3D `alloc` is not exception safe: a later failing request leaves a half-made array
  whose access is undefined; the sized constructor leaks (C16).
* `PD_Reduce` combines the initial value twice; `MAX_ABS` of a negative initial value (C23).
* Region-tag copies with all dimensions half-located and exactly one array empty are
  undefined (C25).  The self-copy guard misses harmful overlaps (C26).  Explicit ranges are
  unchecked (C27).  `disp_data` does not look for missing data (C29).
* Negative `Skip` is accepted, products of sizes overflow `int` (C31, C32), `min`/`max` are wrong
  with NaN (C33).
* Texts longer than the `sprintf` buffers (100, 200 bytes) overrun them (C41), `add_auxiliary_data`
  of 1e200 too (C38).  `set_echo_mode` is not all-or-nothing (C39).
* `make_buf` failing midway leaks buffers, leaves the file open and the log's error empty (C42).
* `read_plt` indexes `Data` of the log unchecked, and in unchecked mode the component (C37).
* Texts are put into the XML log unescaped: a variable name that is not an XML name makes the log
  unreadable, entities in titles are replaced (C43), an empty or blank title, path, zone name or auxiliary value
  makes `read_xml` undefined (C45).  Only seven digits of a number are kept (C43).
* Describing a zone by `size(d, RA::ALL)` as the test programs do is wrong for half-located arrays: the
  additional face is not counted (C54).
* Auxiliary numbers keep six decimals only, so small ones become 0; infinities and NaNs come back as 0; a text with
  blanks comes back as its first word, an empty one not at all (C55).
* The JSON log is not JSON if an extremum or a printed time is infinite or NaN, or if a text has a quote; a backslash in
  the path is not escaped either (C57).
* The screen and the log's echo differ in the blanks before "End"; the line "Dim = n Real_Max = [...]" shows the first n sizes, so a
  1 x 5 x 1 zone is reported as "Dim = 1 Real_Max = [ 1 ]" (C58).
* `write_json(depth)` and `write_xml(depth)` do not check the depth: negative is an endless loop that overflows.  The zone
  logs' files are in the working directory, not in `FilePath` as documented, and zones of the same name, also of
  different files, overwrite each other's (C59).
* TEC_DATA keeps a pointer: the file gets the values at the time of `write_plt`, and `clear`, `realloc` (also to the same size) or
  destruction between registering and writing makes `write_plt` undefined (C60).
* `read_xml` does not check for missing children, attributes or texts: a document without one of them (or with a comment before the text of an element, or with a triple of two or four numbers) is a null pointer or an indeterminate number, not an exception (C68); a log with `<` or `&` in a text can be read but not written again (C68_again_refuted).
* TinyXML2's SaveFile indents an element also behind a text, where the spaces become part of the text: each save adds some.  A blank text written as `&#32;` is
  saved as a blank and gone when loaded again (C70).
* `PD_RF_MAX` and `PD_RF_MAX_ABS` at `double` pass over NaN: a maximum taken to watch a computation does not show that values
  have become NaN, not even when all have (C71).
* `QueryIntText` accepts the start of any number: a setting `1e3` or `0.5` read as an `int` is 1 or 0 without an error (C73_number_refuted).
* Products of `double` by reduction underflow or overflow depending on the order of the points even if the product itself is an ordinary number (C74_order_refuted).
* `exec_time(0, exp)` returns NaN (0 / 0) instead of 0 or an error (C75_none).
* `Example_D1_integration` divides the sum over N points by N - 1: the result exceeds the integral by 1 / (2 (N - 1)), which the rounding errors never hide for up to 2^26 points (C76_above).
* The time loop of the heat examples never ends when dt is too small against time_stop: with dt = 2^-55 and time_stop = 1, flowtime stays at 1/2 (C77_endless_refuted). With the meshes of the files it ends.
* `Example_D1_heat` does not keep the mirror symmetry of its initial values exactly: (a - 2 b) + c is not rounded like (c - 2 b) + a (C82_mirror_refuted). A uniform temperature is kept exactly (C81).
