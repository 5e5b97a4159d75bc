# Formal model of cessen/text_encoding in Rocq (Coq 8.16.1)

## 1. What is modelled

The crate is `no_std`, pure, sequential code.  Every public entry point is modelled,
function by function, as a total Gallina function over byte lists.

| Rust | model file | remarks |
|---|---|---|
| `core` functions used by the crate (`char_indices`, `is_char_boundary`, `encode_utf8`, `len_utf8`, `len_utf16`, `from_u32`, `str::from_utf8` validation, `binary_search_by_key`, `chunks`, slice indexing, `copy_from_slice`, `to_le_bytes` ...) | `RustCore.v`, `Prelude.v` | written from the std documentation / source; part of the trusted base |
| `src/lib.rs` result types | `Types.v` | |
| `src/utf8.rs` | `ModelUtf8.v` | |
| `src/utf16_le.rs`, `src/utf16_be.rs` | `ModelUtf16Le.v`, `ModelUtf16Be.v` | |
| `src/utf32_le.rs`, `src/utf32_be.rs` | `ModelUtf32Le.v`, `ModelUtf32Be.v` | |
| `src/single_byte.rs` | `ModelSingleByte.v` | 31 modules, table as parameter as in the code |
| `src/big5_whatwg.rs` | `ModelBig5.v` | |
| `src/shiftjis_whatwg.rs` | `ModelShiftJis.v` | |
| `src/generated/**/*.rs.inc` | `TabSingle.v`, `TabBig5.v`, `TabSjis.v` | literal copies of the tables, produced by `tools/gen_tables.py` |
| all of the above with machine integers | `ModelWord.v` | only used by C59 |
| the text of `src/*.rs` and `src/generated/**/*.rs.inc` itself | `FileSource.v`, `FileSingle.v`, `FileBig5.v`, `FileSjis.v`; `SourceCrate.v` | read by the lexer and parser and run by the interpreter of a part of Rust: `RustLex.v`, `RustParse.v`, `RustSyntax.v`, `RustEval.v`, `RustProgram.v`.  C66 proves that every function so obtained agrees with the model above |
| what `src/*.rs` exports | `RustExports.v`, `SourceExports.v` | a second, smaller parser that keeps what `RustParse.v` leaves out (`pub`, attributes, types).  A glob or list in a `pub use` would be exported as it is written; there is none.  Macros other than `include!` are not expanded; there are none at the level of items |
| `examples/wrapper.rs` (uniform API over 38 encodings) | `ModelApi.v` | properties are stated over this dispatch |
| the text of `examples/wrapper.rs` itself | `FileSource.v`; `SourceWrapper.v` | read and run as the files of `src/`, as a program that uses the crate (`RustLink.v`).  C67 proves that its two functions agree with `ModelApi.v` |
| `encoding_tables/**/*.py` generators | `ModelGen.v`, `ModelScripts.v` | `ModelGen.v`: from the parsed index to the two tables; `ModelScripts.v`: from the bytes of the data file to the bytes of the generated file |
| the text of these scripts itself | `FileScripts.v`; `SourceScripts.v` | read by the lexer and parser and run by the interpreter of a part of Python: `PyLex.v`, `PyParse.v`, `PySyntax.v`, `PyEval.v`.  C68 proves that the scripts so obtained do what the main programs in `ModelFiles.v` do |
| the main programs of these scripts; the `include!`s of `src/` and the `include_bytes!`s of `tests/` | `ModelFiles.v` | files are a function from paths to contents; a script ends normally or with an exception, with the files as it leaves them |
| the data files and generated files themselves | `FileBig5.v`, `FileSjis.v`, `FileSingle.v` | line by line, produced by `tools/gen_files.py` |
| `tests/property_tests.rs`, `tests/big5.rs`, `tests/shiftjis.rs`, `main` of `examples/wrapper.rs`, the doc examples of `src/lib.rs`, `generate_*_test_data` of the scripts | `ModelTests.v`, `TestData.v` | a failing assertion is `Panic`; proptest's generators are replaced by a universally quantified input |
| the text of `tests/*.rs`, and of the unit tests in `src/*.rs`, itself | `FileTests.v`, `FileSource.v`; `SourceTests.v` | read and run as the files of `src/`, linked with the crate.  `proptest!` is read as a list of functions with one parameter each; what may be generated is `Generates`: any text for a regular expression, byte lists of any length for `vec(lo..=hi, ..)`, which allows more values than proptest does |
| the examples in the documentation, `src/lib.rs:22-27,138-143` | `SourceDocs.v` | what is between lines of three backquotes in `//!` lines, without the `# ` of hidden lines, as the body of a function `main()`; what an example imports is put before the function, and not into it as rustdoc does.  No other file of the crate has a documentation example |
| the 186 unit tests in `src/*.rs` | `RepoTests.v` | transcribed by `tools/gen_repo_tests.py`, run on the model by `vm_compute`; these are tests of the model, not proofs |

How Rust behaviour is represented:

* bytes and code points are `N`, lengths and indices `nat`; a `&str` is its UTF-8 byte list, the
  hypothesis of well-formedness (`is_str`) is the type's invariant;
* every function returns `outcome`: `Ret v`, `Panic` (index out of bounds, slice range,
  `copy_from_slice` length mismatch, `unwrap` on `None`, subtraction underflow), `UB`
  (`from_u32_unchecked` / `from_utf8_unchecked` precondition violated) or `Diverge` (loop fuel
  exhausted).  Nothing is assumed away: absence of the last three is property C01/C02;
* loops are run by a fuelled combinator whose body mirrors the Rust loop body with
  `continue` / `break` / `return`;
* the output buffer is a list that is updated in place and returned alongside the result, so that
  effects beyond the returned slice are visible;
* casts (`as u8`, `as u16`) truncate; shifts and masks are `N` bit operations.

Integer overflow: the model proper uses unbounded numbers.  `ModelWord.v` repeats every function with all additions,
subtractions and multiplications on `usize` and `u32` checked against the range of the type; C59 proves that the two agree on
all slices that can exist.  (Arithmetic inside `core` functions is not part of this.)

The source as a program: `SourceCrate.v` turns the bytes of the 41 source files into modules and items (`mod`, `use`, `include!`), `SourceApi.v`
says how the functions are called and what a caller observes.  The interpreter's simplifications are listed at the top of
`RustEval.v`: it does not check types, visibility, lengths of array types, lifetimes or borrows (rustc does); references are values, `&mut`
arguments are passed by value and result; integer literals get their type from the operand they meet, and where that would be a guess
the program is stuck, which counts as undefined behaviour.  Methods of `core` are those of `RustCore.v`.  Paths follow the rules of the
2015 edition, which is the one of the crate.

Not modelled: lifetimes/borrowing (checked by rustc); `Debug`/`Clone`/`PartialEq`
derives; memory layout; `.proptest-regressions` (seeds of past failures); `encoding_tables/big5_2003.txt` (no code uses it; C74 compares it with the decoder, from the copy in `RefBig5_2003.v`).

Simplified:

* Pieces of code that the files of the crate repeat word for word are modelled once, in `Types.v`: the end of the encoders
  (rounding up to a char boundary), the copying of a character to the output, and the construction of the results.
* `str::from_utf8` is reduced to `valid_up_to`, the only thing the crate looks at.
* `binary_search_by_key` follows one published version of `core`; C38 shows that no other version
  satisfying its documentation could make a difference.
* `slice.chunks(n)`, `char_indices()` are the list of items that the iterator yields.
* Python's `list.sort` is a merge sort, sets are tries.
* The scripts open files with UTF-8 as encoding (Python takes it from the locale).  `int()` is modelled for ASCII digits
  without sign or underscore, everything else counts as an exception.
* The scripts' main programs are modelled on a file system that is a function from paths to contents: no directories, permissions,
  full disks or concurrent changes.  A script runs in the directory it is in.

## 2. Specification

`Spec.v` is written without the model: Unicode scalar values, UTF-8/16/32 forms by arithmetic,
single-byte charsets as the (byte, code point) pairs of the mapping files
(`RefSingle.v`, generated from `encoding_tables/single_byte/ascii_ext/*.txt`), Big5 and Shift JIS as
pointer arithmetic over the WHATWG index files (`RefBig5.v`, `RefSjis.v`, generated from
`encoding_tables/whatwg/index-*.txt`).  The two central relations are `DecUnit e bytes chars` (these bytes are
one code sequence meaning these chars) and `EncUnit e chars bytes`; texts are sequences of units.
`SpecErrors.v` says what incomplete and invalid data is and how far an error extends.
`SpecWhatwg.v` transcribes the WHATWG encoders/decoders as state machines, `SpecRecover.v` defines
replacement of errors in UTF-8, `Session.v` defines clients that call the API repeatedly, `SpecSubst.v` clients that substitute
unencodable characters, `SpecConvert.v` clients that convert from one encoding to another, `SpecPaths.v` where the data files of the repository are,
`SpecLook.v` how far ahead a call may look.
`SpecCalls.v` puts the pieces together: complete specifications of one call of an encoder or decoder.
`SpecFiles.v` defines the format of the data files and the part of Rust's lexical grammar that the generated files use.
`RefPython.v` holds the tables of the codecs of CPython 3.11.10, which come from other sources than the repository's; only C74 uses it.
None of these mentions the definitions of the model (except `Session.v`, `SpecSubst.v` and `SpecConvert.v`, which call the two API functions, and `SpecCalls.v`, which
uses the result types).

## 3. Proof structure

* `Prelude.v`, `Tac.v`, `Trie.v`: vocabulary, tactics, finite maps.
* `ProofUtf8.v`: the core-library model agrees with the spec (char iteration inverts
  UTF-8 encoding, validation accepts exactly the well-formed strings, ...).
* `Engine.v`: the shape all Rust loops share, as the greedy iteration of a decision function "what
  is at the head of the input?" under a capacity constraint.
* `EndianUtf16.v`, `EndianUtf32.v`: the two byte orders as one definition with a parameter, equal to the models of the four files.
* `NextEnc.v`, `NextDec.v`, `NextUtf8.v`: the decision function of each codec, and that its Rust loop
  is the iteration of it.
* `Search.v`: the binary search.
* `Tables.v`: facts about the concrete tables, by `vm_compute` over the complete tables
  lifted to universally quantified statements.
* `Units.v`, `Decide.v`, `Greedy.v`: the decision functions against `DecUnit`, `EncUnit`,
  `Incomplete`, `ErrorLength`.
* `ProofApi.v`, `ProofSession.v`, `ProofMore.v`, `ProofRound.v`, `ProofWhatwg.v`, `ProofRecover.v`,
  `ProofGen.v`, `ProofTests.v`, `ProofScripts.v`, `ProofFiles.v`, `ProofSubst.v`, `ProofWord.v`, `ProofSpec.v`, `ProofLook.v`: lemmas for the property files.
* `SourceWhatwg.v`, `SourceAst.v`: what the parser yields for the source files, by computation; for the two large tables by a
  structural proof.  `RustRules.v`: one lemma per kind of expression, and tactics that run a program symbolically.
  `ProofSrc*.v`: the functions of the crate, run symbolically, simulate those of `ModelWord.v`, loop body by loop body.
* `ScriptAst.v`: what the parser yields for the scripts, by computation.  `ProofPy*.v`: the functions of the scripts, run symbolically, loop by loop.
* `PropCalls.v`, `PropStream.v`, `PropRound.v`, `PropWhatwg.v`, `PropEndian.v`, `PropRecover.v`,
  `PropGen.v`, `PropTests.v`, `PropScripts.v`, `PropSubst.v`, `PropWord.v`, `PropSpec.v`, `PropConvert.v`, `PropPaths.v`, `PropLook.v`, `PropCore.v`, `PropReencode.v`, `PropSource.v`, `PropWrapper.v`, `PropPython.v`, `PropOwnTests.v`, `PropBounds.v`, `PropDocs.v`, `PropIter.v`, `PropExports.v`, `PropFill.v`, `PropCodecs.v`, `PropSearch.v`, `PropResync.v`, `PropOrder.v`: the theorems, named `Cnn_...` after the property, with
  concrete instances.  Each file ends with a `Print Assumptions` of all its theorems bundled into one term.

## 4. Trusted base

* Coq's kernel and its `vm_compute`.
* Axioms: none.  The `Print Assumptions` at the end of every `Prop*.v` says
  "Closed under the global context", so every single theorem there is closed.  (`coqchk` also lists the seven
  opaque constants of the standard library's module `Coq.ssr.ssrunder`.  They are in the environment because `lia`'s
  library loads them; no theorem depends on them.)
* For the Rust text of `src/`, `examples/` and `tests/` and the Python text the correspondence with the model is not trusted: C66, C67, C68 and C69 prove it, from the bytes of the files.  What is
  trusted instead is, for Rust, `RustLex.v`, `RustParse.v`, `RustEval.v`, `RustProgram.v` and `RustLink.v` as a description of the part of Rust that the crate uses
  (on programs that rustc accepts), none of which is specific to the crate; for Python, `PyLex.v`, `PyParse.v` and `PyEval.v`, none of
  which is specific to the scripts.  In `PyEval.v` lists, sets and file objects are values and not references, and the interpreter
  gives up (`Wrong`) where sharing would make a difference; C68 shows that this never happens in the scripts.  It gives up likewise on a
  file that is opened for writing and was opened before, and on a path with an empty segment.  Simplified: text files are UTF-8, `int()` knows ASCII digits
  only, a loop over a file decodes the whole file when it starts, what is written is on the disk at once, the only reason why opening a file
  fails is that a file to be read does not exist, and memory is unbounded.
* The correspondence of `RustCore.v` with `core`.  C64 reduces what
  has to be believed to the documentation of the functions: each statement determines the function (the search up to the choice
  among equal keys) on the arguments that can occur.
  `RepoTests.v`, C52 and C53 exercise the model: it passes all tests of the repository.
* `tools/gen_files.py`: copies text files line by line into string literals (`File*.v`).
* `tools/gen_tables.py` is not trusted for the tables (`Tab*.v`) and the index and mapping data (`Ref*.v`): C56 proves that
  `Ref*.v` is what the data files say, and that the tokens of the generated files are the declarations of `Tab*.v`.
  It is trusted for the test data files (`TestData.v`), which only C53, C62 and C69 use.
* `SpecFiles.v` as a description of Rust's tokens (that rustc gives the token sequence of a `const` array its obvious meaning
  is not modelled).
* `tools/gen_big5_2003.py`: copies the data file of this name into `RefBig5_2003.v`, for C74 only.
* `tools/gen_pycodecs.py`: copies the tables of the codecs of CPython into `RefPython.v`, for C74 only.
* `tools/gen_repo_tests.py` is not trusted for any property.
* `SpecWhatwg.v` is a transcription of the Encoding Standard from memory of its text (there is no network here).  The index files
  are the repository's.

**The mutation log** (`seeded/LOG.jsonl`). `failed` names what failed to compile against the edit, which is often a lemma
below the theorem, since the build stops there. Rows with `contradicted` and `method` were not rebuilt: the changed program
was only evaluated on a case on which the named statements are false. Rows whose `method` says so were compiled in a cut-down copy.

## 5. Plan per property

| id | modelled by | how it is proved |
|---|---|---|
| C01, C02 | API model returns `outcome` | model = greedy run, which is total |
| C03 | decode model | run emits encodings of scalar values; validation accepts them |
| C04 | `finish_input` round-up loop | boundary = offset of a char |
| C05, C31 | buffer threaded through the model | run lemma gives final buffer = written ++ old tail |
| C06, C07, C08, C10 | encode model vs `EncUnit` | run lemma |
| C09 | UTF encoders | no unit is bad |
| C11-C15 | decode model vs `DecUnit` | run lemma |
| C16, C17 | UTF | unit relations are mutually inverse |
| C18 | single byte | table checks |
| C19 | Big5 | table checks + greedy tokenisation |
| C20 | Shift JIS | false as documented: `_refuted` with witness, and the exact characterisation |
| C21 | Big5, SJIS | table checks |
| C22, C23 | client that loops over chunks and buffer sizes, as an inductive relation | stability of units under appending |
| C24 | client loop | progress lemma, well-founded induction on remaining input |
| C25 | recovery client vs WHATWG decoder | induction on the input |
| C26 | UTF-8 | `_refuted` at end of input, `_partial` otherwise |
| C27-C29 | per module | corollaries / simulation |
| C30, C32, C42 | relational | run lemma |
| C33 | Big5 vs WHATWG encoder | `_refuted` with witness, exact set of deviations |
| C34, C35 | table checks against index files | |
| C36 | all decoders | run lemma |
| C37, C39, C40, C41, C43 | corollaries of the run lemma | |
| C38 | binary search contract | sortedness by computation |
| C44 | generators | computation over all tables |
| C45, C46 | exact description of what is false in C20, C33 | token-wise comparison with the encoder table |
| C47 | `ModelGen.v`, for every index without repeated pointers | induction over the sorted list |
| C48 | same; de-duplication is `_refuted`, sortedness `_partial` (mapping files without duplicates) | |
| C49, C50 | recovery client for UTF-8 vs `SpecRecover.v` / WHATWG | induction on the input |
| C51 | recovery client on a stream | errors of prefixes are stable, except UTF-8's |
| C52 | `ModelTests.v` | the loops of the tests terminate with the whole input processed, then round-trip theorems |
| C53 | `ModelTests.v`, `TestData.v` | generated files by computation; the tests from line lemmas over generated data, then by equality for the checked-in data |
| C54, C55 | `ModelScripts.v`, against `SpecFiles.v` | lemmas per line and per item; C47/C48 for the tables |
| C56 | `File*.v` | the files are read and rendered by computation, line by line; lifted to the scripts by C54 |
| C57 | `SpecSubst.v`: substituting client as an inductive relation | greedy run with substitutes; no unit of an encoding spans the place of a substitution |
| C58 | same, against `SpecWhatwg.v` | characters are units of both encoders except for the excluded ones |
| C59 | `ModelWord.v`: all loops again, every `usize`/`u32` operation checked | equal to the model step by step under an invariant on the indices |
| C60 | relations `EncodeCall`, `DecodeCall` in `SpecCalls.v`, equivalent to the calls | soundness from the outcome lemmas; the relations are functional; totality |
| C61 | `SpecConvert.v`: client with a decoder and an encoder as an inductive relation | projects to a recovering decode session and a substituting encode session; C51, C57 |
| C62 | `ModelFiles.v`, against `SpecPaths.v` | induction over the calls of the main program with distinct output paths; C54, C55, C56 for the contents |
| C63 | `SpecLook.v`: bounds by encoding | decisions of `dec_next`/`enc_next` depend on a window; every unit consumed accounts for at least so much output; induction over the steps; tightness by runs of letters followed by a cut sequence |
| C64 | `RustCore.v`, `Prelude.v` | against `Spec.v` and elementary list terms; induction over texts, fuel and search intervals |
| C65 | `DecUnit` followed by `EncUnit` | induction over the sequences of decoded data; the replaced codes by computation over the whole index |
| C66 | `SourceCrate.v`, `SourceApi.v` against `ModelWord.v` (hence C59, `ModelApi.v`) and `SpecCalls.v` | parse by computation (tables: structurally), symbolic execution of each loop body, simulation of the loops |
| C67 | `SourceWrapper.v` against `ModelApi.v` and `SpecCalls.v` | code of the crate does the same in a program linked with it (induction on depth); one case per variant; C66 |
| C68 | `SourceScripts.v` against `ModelFiles.v` (hence C62) | parse by computation, symbolic execution of each function, induction over the data of each loop; the fuel needed is computed from the data files |
| C69 | `SourceTests.v` against `ModelTests.v` (hence C52, C53) and `ModelApi.v` | property tests: symbolic execution of each loop, simulation by the model test; file tests: symbolic execution; unit tests: an evaluator that calls the model, proved sound against the interpreter, and run by computation; documentation examples: symbolic execution |
| C70 | `RustEval.v`, `PyEval.v` | induction on depth, fuel and programs: every construct is monotone in its parts, for the order in which running out of a bound is least |
| C71 | the fuel of `RustEval.v`, `SpecCalls.v` | every iteration of a main loop but the last writes at least k bytes, read off each loop body of `ModelWord.v`; positions in a text are at most three bytes from a boundary; `ProofSrcAll.v` then runs the source with as many iterations as the loops of `ModelWord.v` take.  Work inside functions of `core` is not counted: `from_utf8` looks at the whole input |
| C72 | `RustExports.v`, `SourceExports.v`: declarations with visibility, attributes and types as tokens, read from the source files; the relation `Interface` in `PropExports.v` | by computation; the tokens of the two large tables are known from C66 |
| C73 | C07 and C12, `Session.v` | sizes of the pieces from `Spec.v`; induction on the calls of the loop |
| C74 | `RefPython.v` | C15 and the round trips; the code tables of `Spec.v` and of the codecs compared in the order of the codes by `vm_compute` |
| C75 | C10 and C15 | code sequences are prefix-free; induction on the data with an invariant that excludes positions inside of a code sequence |
| C76 | C49 and C75 | the reading of data with errors replaced (`Reads`) takes one code sequence or one reported error at a time; none of either crosses into data at which reading resumes |
| C77 | C75 | the order of two characters decides the order of their code sequences, whatever follows; induction on the texts; the converse because the order is total |
