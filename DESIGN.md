# Design: a machine-checked model of swrs in Rocq/Coq

The model lives in `rocq/theories` (logical prefix `Verif`). It is a total, computable Gallina transcription of
the Rust code in `/repo/src`, function by function; every definition cites the file and lines it models.
`Panic` is an explicit outcome (`res E A` = `Ok`, `Err`, `Panic`). Every line of `/repo/src` that does something
is cited by some definition, except those listed under "Not modelled".

Three kinds of files are kept apart:

* **models** (`M_*.v` for `src/parser`, `A_*.v` for `src/api`, and the base layer) - what the program does;
* **specifications** (`Spec*.v`) - small, relational, written from the English property, using no function of the
  model beyond data types and the interface of the external libraries;
* **property theorems** (`P_*.v`) - statements `Cxx_...`, each followed by `Print Assumptions` and an
  `Example` that meets its hypotheses. Their proofs are short; the work is in `*Proofs.v`.

## Layers

| layer | files | models |
|---|---|---|
| base | `Base`, `Str`, `Dec`, `Utf8`, `Recs` | outcomes, Rust `str` as a list of Unicode scalar values with byte lengths and byte slicing (panics off char boundaries), `split`, `trim`, integer printing/parsing, UTF-8, association lists for `LinkedHashMap` |
| floats | `Flt` | IEEE binary32/64 values, correctly rounded decimal parsing (`str::parse`), shortest printing, serde_json's own f64 reader, f64/f32/i32 casts |
| float proofs | `FltProofs`, `FltQ`, `FltGapData`, `FltGap`, `FltF32`, `FltCanon`, `JsonF32`, `NumberProofs`, `NumberTextProofs`, `NumberShortProofs`, `NumberStdProofs`, `ShortestProofs`, `UniqueProofs` | rounding is to the nearest value; what number texts are read as; rational meaning of the float operations; shortest decimals of every f32 read back through one f64 operation |
| json | `Json` | serde_json text <-> tree, serde derive (structs, enums, options, defaults, flatten) |
| json proofs | `JsonProofs`, `RecsProofs`, `SpecJson`, `JsonGrammar` | round trips; the grammar as relations and its equivalence with the reader |
| crypto | `Aes`, `Crypto` (`AesProofs`, `CryptoProofs`) | AES-128-CBC-PKCS7 with key = iv, reading and writing encrypted files with crash points |
| parser | `M_Color` (color.rs), `M_File`, `M_Library`, `M_Resource`, `M_View`, `M_Logic`, `M_Project`, `M_Date` (serde_util.rs, chrono), `M_Raw` and `M_Parsed` (parser/mod.rs), `M_Util` (util.rs), `M_Iter` (the iterators of `parse_iter`) | `src/color.rs`, `src/util.rs`, `src/parser/*.rs` |
| programs | `E_Examples` | `examples/*.rs`: command line and file system to standard output, exit code and file system |
| messages | `M_Message` | the `#[error(...)]` texts of `src/parser` and `src/api`, as chains of an error and its sources |
| api | `A_Block`, `A_View`, `A_Screen` (screen.rs, component.rs), `A_Project` (api/mod.rs), `A_Equal` (the derived `PartialEq`) | `src/api/*.rs` |
| specs | `Spec`, `SpecLines`, `SpecReading`, `SpecNumber`, `SpecRecord`, `SpecDate`, `SpecJson`, `SpecBlock`, `SpecView`, `SpecScreen`, `SpecProject`, `SpecLoad`, `SpecTools`, `SpecMessage`, `SpecSave`, `SpecWrite`, `SpecAes`, `SpecText`, `SpecStrings`, `SpecInto`, `SpecBack`, `SpecSettle`, `SpecResave`, `SpecSpread`, `SpecEqual`, `SpecPath`, `SpecSaid`, `SpecTwice`, `SpecFill`, `SpecIter`, `SpecMenu`, `SpecAnyCode`, `SpecCalm`, `SpecRefs`, `SpecReread`, `SpecTidy` | meaning of texts, numbers, records, dates, JSON, block graphs, view forests, screens, projects, loading, listings, error texts, saving, written texts, FIPS-197, UTF-8 and strings |
| properties | `P_Crypto` `P_Color` `P_Files` `P_Records` `P_View` `P_Logic` `P_Panic` `P_Project` `P_Block` `P_Content` `P_ApiView` `P_Screen` `P_Resources` `P_ApiProject` `P_Parsed` `P_Loading` `P_Reading` `P_Json` `P_Number` `P_Tools` `P_Message` `P_BlockError` `P_LoadMessage` `P_Save` `P_Write` `P_Cipher` `P_Text` `P_Strings` `P_Into` `P_Back` `P_Settle` `P_Resave` `P_Spread` `P_Equal` `P_Path` `P_False` `P_Said` `P_Twice` `P_Fill` `P_Iter` `P_Menu` `P_AnyCode` `P_Calm` `P_Refs` `P_Reread` `P_Reopen` `P_Loaded` `P_Blank` | the theorems listed in MANIFEST.json |
| tests | `T_Repo` | the repository's own tests, transcribed and computed on the model |

## What is modelled for each property and how it is proved

* C01-C03 (`P_Crypto`) - concrete AES-128 (FIPS-197, checked against its test vector), CBC and PKCS7; inverse
  cipher by finite sweeps lifted to all bytes plus xor-linearity; CBC by induction on blocks.
* C04 - UTF-8 encoder/decoder round trip by case analysis on code point ranges; composition over the six files.
* C05 - a file is truncated, then receives a growing prefix of the data; crash points are the intermediate
  states. In place: refuted by a witness; to another file: proved for all crash points.
* C06-C10, C56 (`P_Color`, `P_Files`) - bit arithmetic and finite sweeps lifted by `forallb_forall`.
* C11-C15 (`P_Records`, `P_View`) - JSON printer/parser round trip by induction on JSON trees; decode of encode
  by computation. For `f32` fields: the shortest decimal is within half a gap of the value; the error of the one
  f64 multiplication or division of serde_json is bounded by the distance of the decimal to the midpoints, which
  is bounded below by certificates (`FltGapData`, continued fraction style bounds checked by `vm_compute`).
* C14 - permutations of the members and foreign members, by induction on the member list.
* C16-C22 (`P_Files`, `P_View`, `P_Logic`) - line-list lemmas (`split (join ls) = ls`), sections by induction.
  Where the code does not satisfy the claim, a `_refuted` witness and the exact side condition.
* C23 - invariant of `fold insert`.
* C24 (`P_Panic`) - no-panic theorems by case analysis; for the parsers that can panic an equivalence with
  an independent description of the texts on which they do (`project_crash` in `SpecDate`, logic headers, specs).
* C25-C26 (`P_Project`) - the proleptic Gregorian calendar against day counting from 1970-01-01 (`SpecDate`),
  decimal widths.
* C27, C28, C55 (`P_Block`) - fuelled interpreter with an explicit out-of-fuel outcome shown never to be
  reached; inductive pointer-graph relation, equivalence in both directions.
* C29-C31 - induction over the nested block tree.
* C32-C35, C70 (`P_Block`, `P_Content`) - string/token induction.
* C36-C40 (`P_ApiView`) - forests: induction with a path/uniqueness invariant.
* C41-C45, C52 (`P_Screen`) and C46-C48, C51, C53 (`P_ApiProject`, `P_Resources`) - conversions of the API layer,
  association-list maps; histories of resource operations by induction with an ownership invariant.
* C49, C50 (`P_Files`, `P_Parsed`) - composition of the six data files. What a path stands for is described on its text (`P_Path`): the last component comes from the last segment that is not skipped (`PathProofs.peel`).
* C54 - decimal arithmetic; f64 by exact rational arithmetic.
* C57-C63 (`P_Reading`) - each parser is equivalent to a relation between texts and values defined over the
  lines (`SpecLines`, `SpecReading`), for success and for errors. Which unknown project fields can be buffered
  (`flatten`) is said by `storable` in `SpecNumber` (depth and number ranges), proved equal in `StorableProofs`.
* C64 - line numbers of errors, against the position of the offending line.
* C65-C68 (`P_Loading`) - exact outcome of loading (success, which error, panic) against `SpecLoad`.
* C69 - gravity bits; C71 - counting iterator over an arbitrary step function.
* C72, C73 (`P_Json`) - records as relations between member lists and fields; JSON texts as a grammar.
* C74-C76 (`P_Number`) - rounding analysis of serde_json's number reader (one f64 operation, then f32 or i32); std's
  number grammar with the nearest f64 as meaning; the printed digits are minimal because rounding intervals are convex.
* C77-C79 (`P_Tools`) - the example programs; the block listing by induction over trees, and its injectivity by a
  deterministic reading of the lines.
* C80 (`P_Message`) - the error texts (`M_Message`, the `#[error]` attributes and their sources) against `SpecMessage`,
  which says them from the input; built on the exact errors of C57-C64.
* C81, C82 (`P_BlockError`) - exact errors and panics of specs and block containers: relations `word_fails`,
  `fails_block` ... in `SpecBlock` over the pointer graph and the list of blocks used so far; soundness by induction on
  the depth of the interpreter, completeness by mutual induction on the relations.
* C83, C84 (`P_LoadMessage`) - the texts of the API errors, on top of C66, C67, C38 and C82.
* C85 (`P_Save`) - saving and loading an API project end to end, by C46, C50, C66 (loading looks maps up by name only) and C04. The conditions (`SpecSave`) are stated on the API project; that fields fit their Rust types is said of the raw views and blocks written for it (`views_fit`, `button_fits`, `code_fits`). The conditions of `told_apart` are exact (C85_exact, C85_icon_exact): C22_lost says which containers the logic file loses, and a screen read without its containers is the same iff it is `idle`.
* C86 (`P_Save`) - the outcome of saving and loading for every fitting project, not only for those that come back. `remains` (`SpecSave`) is defined on API projects only; C86_settled says that it is idempotent and that C85 applies to it. C86_automatic (`IconProofs`) is the case of automatic resources, where the icon is the only file that is saved.
* C87, C88, C89 (`P_Write`) - the written texts, character by character. `SpecWrite` lists keys, values, sections and separators from the struct declarations and serde attributes; it does not use the encoders. Together with C57-C62, C72 and C73 (reading) this fixes the format of every record and data file in both directions.
* C90 (`P_Cipher`) - the functions of `Aes` and `Crypto` are the only ones that satisfy the description in `SpecAes`: FIPS-197 with multiplication of polynomials, inverses and the affine map instead of tables, CBC, padding, the key. Finite parts (products by 2 and 3, inverses, the S-box) are decided by sweeps over all bytes; the rest is proved for all keys, blocks and texts.
* C91 (`P_Text`) - the string functions of `Base` and `Utf8` that the parsers are built from, against RFC 3629 and the list of white space characters (`SpecText`).
* C92 (`P_Strings`) - a string of the model is a list of numbers; that they are Unicode scalar values is an invariant of all conversions (`SpecStrings` lists the strings of every value; `StringsReadProofs` reading, `StringsLoadProofs` to the API, `StringsApiProofs` back, `StringsProofs` writing). So no condition on the written text is left in C85_encrypted_partial, and C92_encrypted carries every outcome of C85 and C86 over to the encrypted files.
* C93 (`P_Into`) - an exact description of everything written for an API project (`SpecInto`): records of views field by field, code as a relation between trees and numbered blocks, file names as parts of paths. Seeding changes in `library_of` had shown that the numbers of the library items were not pinned by any theorem.
* C94 (`P_Back`) - what comes back of code in general. A reference to a tree points to the last raw block written in it (`all_tails`), which has nothing below it, so `block_back` (`SpecBack`) is one level of `last_block`. C31 is the case `block_back b = b`.
* C95 (`P_Settle`) - C94 carried to whole projects. `settle` (`SpecSettle`) maps `block_back` over all code. A project with plain code and its settled version differ only in the logic file, and every screen is read from both in the same way (`settled_reads`), so C46 and C86 for the settled project, which is ready, say what is loaded. Where the file loses code anyway, the code is made empty instead (`blank`). Conversely a screen that has been read had its code given (`read_given`).
* C96 (`P_Resave`) - by induction over the reading relation of C55, every block in a tree that has been read is `as_read` (`CleanProofs.reads_clean`); so is the block written last in it (`last_every`). Hence C94 and C95 apply to everything that has been loaded, and only list types can make the second reading fail.
* C97 (`P_Spread`) - joining with spaces forgets where the spaces were, so a tree and its `spread` are written as the same text (`SpreadProofs.spread_into`); the conditions of C94 on the spread tree are those of `block_loose` on the tree, and the size, the holes and the blocks read again are the same on both sides.
* C98 (`P_Equal`) - each `==` is characterised by a normal form (zeros without sign) and a condition (no NaN), `EqualProofs.norm_at`; the characterisations compose along lists, options, records and trees, and symmetry and transitivity follow from them. serde_json gives no NaN (`EqualProofs.d_f32_number`), so NaN can only come from number arguments. C98_again: what is equal to code that has been read is itself like code that has been read (C96), so C94 applies.
* C99 (`P_Said`) - `BackProofs` is generic in what a referenced block has to satisfy (`trips`, `back_iff_by`). A word with a leading '%' in a text makes more parameter words than there are arguments (`SaidProofs.gives_count`, `conv_count`), so a block with one is never read (`gives_good`); this makes the condition on words part of the equivalence. Empty names: the raw blocks of a tree and of its `tidy` tree differ only in specs that parse alike (`like`), and reading respects that (`like_reads`).
* C100 (`P_Twice`) - one conversion is a function on ready projects without resources (`TwiceProofs.reproject`: the layouts are read from the lines written for them, `relaid`; the flag is turned). Writing a view that has been read changes at most its parent type and the orientation of a scroll view (`written`), both determined by type numbers that stay, so the third time equals the second (`retree_settles`). The conditions of C85 for the files are kept (`fits_again`, `apart_again`), so the number of times is by induction.
* C101 (`P_Fill`, `SpecFill`) - `apply_args` and `apply_blocks` on arbitrary contents, by induction over the items (`FillProofs.apply_args_ok`, `apply_args_err`, `placing`). Found by the seeded change m228, which none of the theorems on freshly parsed specs noticed.
* C102 (`P_Iter`, `SpecIter`, model `M_Iter`) - the public `parse_iter` functions on a shared iterator of lines, including what is left in the iterator after an error (`IterProofs.iter_ok`, `iter_err`, `layout_iter_err`). `M_Iter` repeats the loops of `M_Logic` and `M_View` with the lines left over as a second result; `C102_used` proves that both are the same.
* C103 (`P_Menu`, `SpecMenu`) - C94 and C99 for trees with blocks in menus. The blocks that references point to have nothing below them, so menus with blocks matter only in the blocks of the outermost stack; there the number is the counter after the menu (`MenuProofs.items_menu_reads`). The tree with these menus replaced by their texts (`stack_menus`) satisfies the conditions of C94, which gives `menu_settled`; the version with any texts and names (`MenuSaidProofs.open_iff`) goes through `spread` and `tidy` like C99.
* C104 (`P_AnyCode`, `SpecAnyCode`) - C95 with C103 in the place of C94: `project_back` maps `code_back` over all code. What C103 leaves is kept (`AnyCodeProofs.said_kept`) and no larger than the code was, so it survives and fits; the rest is the argument of C95 (`AnySaveProofs`).
* C105 (`P_Calm`, `SpecCalm`) - the specs of a container are those of the blocks of the tree (`CalmProofs.into_says`), their words are those of the texts and names (`spec_words`, from C97); C24 and the proof of C95 (`project_safe`) give the rest.
* C106 (`P_Refs`, `SpecRefs`) - counting: every pointer that is followed (the next block, a sub stack, an argument, a string of '@' and a number) adds its target to the list of raw blocks used (C55), which has no repetitions; `RefsProofs.stack_few` says that the numbers of the blocks read in their own place and the numbers in strings occur in that list together. Texts cannot contain parameters because there are only as many arguments as parameters (`words_count`, as in C99). If all raw blocks are read in their own place there is none left for a string (`read_not_lost`).
* C107 (`P_Reread`, `SpecReread`) - invariants of the reading loops: every number that a decoder returns is in the range of its type (`RereadProofs.int_range`, `color_range`, `f32_canonical`), hence records, sections and maps that were read satisfy the hypotheses of C11 to C26. For the converse with infinite floats every view of a file is traced to the line it was read from (`loop_from`), and the lines of the written file are known (`plain_view_lines`, the proof of C20 without finiteness). For the logic file (`LogicRereadProofs.logic_loop_read`) every screen that was read has a section, names without newlines and containers without '.java_', which leaves `screen_plain` as the only hypothesis of C22.
* C108 (`P_Reopen`) - C107 for the whole project, by C50: what six texts were read as has all the ranges C50 asks for, no empty screen, and resource files filed under the names that reading gives them (`collect_filed`), so only the date, the file list, the view file and the order of the screens are left. The file system is assumed to be the same for both readings.
* C109 (`P_Loaded`) - by C93 (which says when writing panics): code that was read has no holes (`project_read_clean`), resource files that were read have the names they are filed under (`class_called`), and a date that was read is one that chrono has (`project_read`). `C109_again` is C96_memory without its condition on resources, which always holds (`loaded_resources`); `C109_files` is C96_files without its conditions on resources, metadata, colours, code and the ranges of fields: those hold of everything that was read (`LoadedProofs`), and `SpecTidy` has what is left, which is exactly as much (`loaded_tidy`).
* C110 (`P_Blank`) - C109_again for projects with screens that the logic file has nothing about. The project is compared with the one in which every screen has the Java name that belongs to its layout (`proper_names`): both are written alike but for the logic, and the screens are read in lockstep (`BlankProofs.lockstep`), with a missing entry in one and an empty one in the other. `C110_lost` shows that the condition on the names is needed.
* C14_view_nested - the nested `layout`, `text` and `image` records of a view line may come in any order and with unknown fields, like the outer one.

Properties that are false of the code are marked `partial` in MANIFEST.json: they have a `_refuted` theorem with
a witness and a `_partial` or `_exact` theorem that says exactly when the claim holds. The notes in MANIFEST.json
give the condition in words. Where `_refuted` describes a whole class of inputs for which the claim fails, `P_False`
denies the claim itself (`_claim_refuted`) by one concrete input of that class.
* C25, C26 (`DateBackProofs`) - which seconds of which years survive saving is decided for all years, including those
  whose text is longer or shorter than the fixed places at which it is cut again.

## Trusted base

* The Coq 8.16.1 kernel (`vm_compute` included; `coqchk` re-checks everything without the VM).
* `Print Assumptions` reports "Closed under the global context" for every property theorem (all of those in
  MANIFEST.json; the command follows each theorem in `P_*.v`). No axiom of the standard library is used.
  `coqchk` lists seven constants of `Coq.ssr.ssrunder.Under_rel`; they belong to a module type of the standard
  library loaded through `ssreflect` by library files and no theorem depends on them.
* The faithfulness of the transcription, and these models of external code, which is not part of /repo:
  * serde/serde_json 1.x with default features: text grammar, numbers (u64/i64/f64 classes, f64 reading by one
    operation with a power of ten, no `float_roundtrip`), escapes, duplicate/unknown/missing fields, records as
    arrays, `flatten` (buffered content with recursion limit 128), error or success but not the error texts;
  * ryu: the shortest decimal that reads back, closest one of several (the even one of two), in serde_json's layout;
    std: the same with the upper one of two;
  * chrono 0.4 `NaiveDate`/`NaiveDateTime`: proleptic Gregorian calendar, year bounds of recent versions;
  * ritelinked 0.3 `LinkedHashMap`: association list; insertion of an existing key keeps its place in one version
    and moves it in another, so theorems about it are proved for both (`mv`);
  * std: `str` methods, integer parsing, `f64` parsing and printing, `fs::read`/`fs::write`/`read_dir`, `HashMap`
    (insertion order in the model; statements about order are made only where the program fixes it);
  * aes 0.7, block-modes 0.8, block-padding 0.2 (the standard), rand (an arbitrary sequence of numbers).

## Not modelled

* Standard error and the wording of panics of the example programs; memory exhaustion, stack overflow; counters beyond 2^31 or 2^32 lines, blocks or members.
* The inner text and position of serde_json, chrono and io errors; io errors other than a missing file.
* Reconstruction errors: the serializers used here cannot fail (string keys only, writing to memory; a float
  that is not finite is written as `null`), so `reconstruct` has no error outcome in the model. It can panic
  (dates out of range), which is modelled.
* NaN payloads; `Debug` output other than that of `Color`.

## Wrong programs

`seeded/mutations*.json` are edits of the model in the way of realistic bugs; `tools/mutate.py` applies each in a
scratch copy, rebuilds, replaces failing proofs there and reports which property theorems fail.
`seeded/LOG.jsonl` records every attempt and what was tightened.
