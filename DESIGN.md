# Formal model of PyMCNP in Rocq — design

## Approach

The library is text in, object out, text in again.  Nearly every reader is
`re.compile(pattern).match(source)` followed by per-group conversion, so the
model starts with the Python runtime pieces the code leans on and then models
the code on top of them, branch by branch:

| layer | files | what it models |
|---|---|---|
| Python strings | `PyStr.v` | `str.strip/split/join/lower/startswith`, slicing, whitespace class, results |
| `re` | `Regex.v`, `RegexParse.v` | pattern syntax parser and backtracking matcher with captures, `match`, `finditer`, `sub`, `split` |
| about `re` | `RegexFacts.v`, `RegexLang.v`, `RegexDer.v`, `SubFacts.v` | the matcher against a relational semantics; the language of a pattern; emptiness of the intersection of two languages by derivatives |
| numbers | `PyNum.v` | `int()`, `str(int)`, `decimal.Decimal` construction, `str(Decimal)` |
| scalar types | `Types.v` | `pymcnp/types/*.py` |
| lazy sequences | `Generator.v` | `types/Generator.py` over `itertools.tee` |
| geometry, lattice | `Geometry.v`, `Lattice.v` | the recursive-descent readers and writers |
| card text | `CardText.v` | `Card._preprocess`, `Card._postprocess` |
| card classes | `Tables.v` (generated from the text of /repo by `tools/gen_tables.py`), `Cards.v` | `_KEYWORD`, `_ATTRS`, `_REGEX`, setter checks and `to_mcnp` of 675 `inp` classes; generic `from_mcnp`/`to_mcnp` and the writers of the classes with their own (Ds_1-3, F_2, entries of PTRAC filters and DS chains) |
| numbered cards | `Numbered.v` | `Surface`, `Cell`, `M_0` with their numbering |
| problems | `Problem.v` | the `nps` and `seed` properties of `Inp` |
| INP files | `InpFile.v` | `Inp._preprocess`, `from_mcnp`, `to_mcnp`, `Union.from_mcnp`, the order of the card classes |
| PTRAC, MESHTAL, OUTP | `Ptrac.v`, `Meshtal.v`, `Outp.v`, `OutpTables.v` (generated), `OutpSamples.v` (generated) | file level readers and writers |
| filters, processors | `Processors.v` | `PtracFilter`, `PtracProcessor`, `MeshtalProcessor` |
| actions | `Cli.v` | `Run`, `Check`, `_cli/_io.py`, `File`, the error classes |
| equality | `Equality.v` | `__eq__`, `__ne__`, `__hash__` of the types |
| materials | `Elements.v` (generated), `Formula.v` | the isotope table, `M_0.from_formula` |
| display | `Shapes.v`, `Visualize.v` | shape algebra, the shapes of surfaces, the drawing of cells |

Model files contain definitions only; `*Facts.v` files contain lemmas;
`Properties/*.v`-style files named `Prop_*.v` contain the property theorems,
each closed by `exact`, each followed by `Print Assumptions` and accompanied by
`Example`s showing the hypotheses are met.

Characters are Latin-1 code points (`ascii`, 256 values).  Exceptions are
values: `Lib` (an `errors.Error` subclass) or `Py` (any other exception class),
so "raises only library errors" is a statement about values.

A property that is false of the code is not weakened silently: a theorem with
suffix `_refuted` gives a witness, and a `_partial` theorem states the part that
does hold, with the exact side condition.

## Per-property plan

(see MANIFEST.json for the current status and theorem names)

* C01–C03 scalar round trips: `PyNum` decimal printer/parser inverse lemmas plus
  "the Fortran rewriting regex does not match printed numbers".
* C04, C05: refutation witnesses by `vm_compute`; partial positive statements for
  texts of the library's own number pattern.
* C06–C11: direct computation of the regex on printed forms.
* C12, C13: `finditer` over joined tokens; refutation for skipped text.
* C14: state machine of `itertools.tee` over a generator; invariant over all
  `next()` schedules.
* C15–C19: recursive-descent parser as total functions with fuel bounded by
  token count; round trip by induction on trees; set semantics as predicates
  over an arbitrary type of points.
* C20: same for lattices.
* C21–C24: `re.sub` based text passes; wrap as a fold over words.
* C25–C27: generic theorem over the class table with a decidable "regular shape"
  check evaluated on every generated class.  For C27 also a weaker shape that all 676
  classes have: fixed letters, optional parts and outermost groups (PiecesSpec.v); the
  groups are the pieces, and a class reads its own pieces if they are numbered 1, 2, 3, ….
* C28–C31: setters as state transformers; invariants by induction over call lists.
* C32: counter state machine.
* C33, C34: problem as a record of card lists; lens laws.
* C35, C36, C67, C68: a file is a list of rows (words, and folds between them); the
  passes of `Inp._preprocess` are shown to turn it into one line per row, the pattern
  of the file to cut it at the blank lines, each reader to depend on a text only
  through `Card._preprocess`.
* C68, cells: the pattern of a cell is followed word by word; the geometry ends where
  the first word that begins with a letter begins, since a geometry has no letters.
* C71: the text of a row has a word on each of its lines; the blocks of a problem are
  the texts of its rows.
* C69: two classes that are tried in turn cannot be confused if no text is in the
  language of both patterns; this is decided by derivatives of regular expressions,
  verified in `RegexDer.v`, for every pair of the table.
* C70: a list of options is scanned with one pattern, an alternative of the patterns of
  the classes, and each piece is read by the classes in another order. `takes` says what
  the engine does with a text followed by anything; one option is taken whole if the
  pattern is thrifty (its repetitions are lazy) and no other class of the family can match
  a beginning of it, which is decided per family by derivatives. Lists by induction.
* C72: per class, the texts that each group of its pattern can hold give the kinds of
  value that its setters can meet (a number, a shorthand, nothing, a tuple), and the tests
  of the setters are evaluated on the kinds. The test is computed per class, its soundness
  proved once; classes that fail it are each shown to raise on a text.
* C73: each command is a function from the contents of its files to what it prints, how
  it ends and the contents the written file goes through. C74: by induction on the list.
* C75: the loops of the four drawing methods and the statements of the command, as the list
  of pictures shown or saved before it ends. The loop that skips is compared with the one
  that does not, with dictionaries that agree outside of what is skipped.
* C76: every pattern compiled without regard to case is shown to see only the small letters of
  a text (by induction on the parser and the matcher), then each reader is followed on the
  text in small letters. The tests of the setters are decided per class by a function whose
  soundness is proved once: passing in any spelling implies passing in small letters. A second
  function decides which tests do not depend on the spelling at all (all but those of three
  classes); with it the outcome of every reader, errors included, is shown to be the same in
  every spelling without a capital E, up to the cutting of a file and its three blocks.
* C77: from the expansion theorem of C24: the words after the first preparation are settled (not
  counted), so the second one only turns runs of shorthand into the small letters they have.
* C37–C41: fixed-width line readers and writers; filters as list functions.
* C42: trace semantics with an arbitrary completion schedule.
* C43: file system steps with a crash after any prefix.
* C44–C46: small total functions.
* C47: shape predicates over arbitrary points.
* C48: exhaustive check over the finite table plus a universally quantified
  statement about `from_formula` with molmass as an oracle.
* C49, C50, C30–C32: cells, surfaces and materials as state machines over their
  setters, with the counter of automatic numbers.
* C51, C52, C42–C44: paths as lists of names; the jobs of `Run` with an arbitrary
  schedule; the state of the file system after any prefix of the steps.
* C45, C46, C53: messages and equality, from the texts of the values.
* C54, C55: the readers of PTRAC lines and the pattern of the file, on all texts.
* C56–C58: the columns of a MESHTAL line by their number; the file pattern.
* C59, C60: the predicate of a shape in exact rational arithmetic against the sense
  MCNP gives a surface; cells by induction on their geometry.
* C61, C62: the sums of the fractions of `from_formula`, with molmass as an oracle.
* C63–C66: the layouts of the OUTP pages as patterns; each is shown to match the page
  it is to match with the fields as groups, for any number of lines.

## Trusted base

* The kernel of Coq 8.16.1, with `vm_compute` (its conversion is part of the kernel).
* Axioms: none.  `Print Assumptions` says "Closed under the global context" after every
  property theorem; the commands stand in the `Prop_*.v` files.  (The seven
  `Coq.ssr.ssrunder.Under_rel.*` entries a listing of the whole environment shows are
  the parameters of a sealed module of Coq's own ssreflect plugin, which is loaded with
  the standard library; no theorem depends on them.)
* The hand transcription of the Python code, cited definition by definition, and the
  four generators in `tools/`, which read class tables, element data and page patterns
  out of the text of /repo.
* The models of the Python runtime (`str`, `re`, `decimal`, `itertools.tee`,
  `pathlib`, `subprocess`), written from the language documentation.

### What is simplified

* Text is Latin-1: characters above U+00FF are not modelled, and `str.lower`,
  `str.isspace` and `\s` are those of Latin-1.
* The guard of newer CPython versions that makes `int()` and `str()` of more than 4300
  digits raise ValueError is left out (it can be switched off there).
* Values given to constructors are strings, integers, decimals, tuples or library
  objects.  A Python float as an argument is not modelled.
* Shapes, formulas and MESHTAL numbers are computed in exact rational arithmetic, not
  in floats: `.2F` rounding above 2^53 is not that of Python.
* Python's recursion limit is not modelled: readers by recursive descent do not fail
  on deep input here.
* `molmass` is an oracle: the composition of a formula is an argument.
* The hooks of processors return or raise; a filter generator is drained.
* `Generator.value` advanced from outside, and option objects shared between cards,
  are not modelled.
* `None in cells` (Inp.py:420) compares texts and is taken to be false.
* `get_outfile` is modelled on normalised paths.

### What is not modelled

* `Plot.py`, the pandas frames of `to_dataframe` (their keys are), pyvista meshes,
  `Trc.to_show`, `Empty` shapes, the test of `P_1` for collinear
  points.
* `_cli` argument parsing (docopt). For `visualize` the problem is given as the list of its
  cells and the shapes of its surfaces; the plotter is a list of numbers and shapes.

### How the theorems were tested

`seeded/LOG.jsonl` records wrong edits of the model.  A build of the wrong program stops
in each file at the first statement that fails; `first_broken_lemma` is what the build
reported.  `theorems_failed` is worked out from it (`tools/seedlog.py`): the theorems of the
claim that are this statement or whose proofs use it, found by name in the sources.
This says that the proof is lost, not that each of these theorems is false of the wrong
program.  Statements later in the same file were not tried.  Where no theorem of
the claim uses the failing statement, that statement is listed instead, and the row does
not show that a theorem of the claim itself fails.  The list is empty when nothing failed
(then `theorems_tightened` names what was changed) and in one row where the build gave
no answer in time.  Earlier versions of the log listed all theorems of the claim in
every row; this was too much.
