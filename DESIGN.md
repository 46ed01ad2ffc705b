# A Rocq model of x4i (afedynitch/x4i)

Source modelled: `/repo/x4i3/*.py` (Python 3 reading).  Nothing of the project is executed;
every definition in `rocq/theories/Model` cites the file and the lines it transcribes.

## Layout

| directory | contents |
|---|---|
| `rocq/theories/Model/`      | executable Gallina transcription, function by function, no proofs |
| `rocq/theories/Spec/`       | small independent specifications used in theorem statements |
| `rocq/theories/Proofs/`     | lemmas |
| `rocq/theories/Conformance/` | the project's own unit tests run on the model (tests, not theorems) |
| `rocq/theories/Properties/` | the property theorems (each `exact` a lemma), examples showing that the hypotheses are met, `Print Assumptions` |

## How Python is represented

* `str` is `list ascii`, one `ascii` per code point 0..255.  Entry files are opened with
  `encoding='latin1'`, so this is the exact alphabet of everything read from the database.
  `strip`/`split` use Python's whitespace restricted to latin-1; `upper`/`lower`/`capitalize`/`title`
  map ASCII letters and the regular latin-1 pairs only.
* exceptions are values: `res A := Ok a | Raise e`.
* `dict` is an insertion-ordered association list with update in place.
* `float` is `SpecFloat.spec_float` of Coq's standard library with precision 53 and emax 1024
  (IEEE binary64, round to nearest even; no axioms).  `float(text)` is the correctly rounded value
  of the decimal literal.  `math.acos` is a function argument (an oracle) of the definitions that use it.
* mutable objects are explicit state that is passed and returned.
* the file system, the SQLite table, network and crash points are explicit state; SQL text is
  tokenised and evaluated by a small model of the SQL fragment that the code can produce.
* external calls (pyparsing in the first layer of the model) are function arguments, so the theorems
  hold for every behaviour of the callee.

## Trusted base

* Coq 8.16.1's kernel (and `coqchk`).  No axiom of our own, no kernel check switched off.
* What `Print Assumptions` lists under each theorem in `Properties/*.v`:
  * nothing ("Closed under the global context") for C01-C79, C85-C100 and for C62, whose theorems are in
    `P08_Entry.v` and `P21_ReadBack.v`
    (C87_cosines excepted);
  * for those theorems of C80-C84 that speak of real numbers, and for C87_cosines, the axioms behind Coq's `Reals`:
    `ClassicalDedekindReals.sig_not_dec`, `ClassicalDedekindReals.sig_forall_dec`,
    `FunctionalExtensionality.functional_extensionality_dep`, `Classical_Prop.classic`.
    Flocq is used in the proofs and adds none.
* The correspondence between `Model/*.v` and the Python source (line references in comments), and
  between the Python runtime behaviour and its model described above.
* The definitions in `Spec/*.v`: they say in Coq what the words of `properties.jsonl` mean.

## What is modelled

| source | model | not modelled |
|---|---|---|
| `__init__.py` 86-104 (paths), 106-171 (download), 173-180, 199-217 (cache) | `Storage.v` | the bytes of the archive, progress bars, printing; metadata and disclaimer strings |
| `abundance.py` | `Abundance.v` (table and lookup) | the `__main__` block |
| `endl_Z.py` | `Dicts.v`, `Particle.v` | |
| `exfor_utilities.py` | `Utilities.v` | `formatExceptionInfo`, `timeit`, the table printers (182-188) |
| `exfor_exceptions.py` | constructors of `exn` in `Py.v` | texts of messages (classes only) |
| `exfor_manager.py` | `Manager.v`, `Sql.v` | the abstract methods that only raise, `decompress_entry` (runs `unzip`), opening the connection, `VERBOSE` printing |
| `exfor_entry.py` | `Entry.v`, `Dataset.v` (`getDataSets`, `getSimplifiedDataSets`), `Storage.v` (factories), `Print.v`, `Show.v` | |
| `exfor_subentry.py` | `Entry.v`, `Show.v` | |
| `exfor_section.py` | `Section.v`, `Print.v`, `Show.v`, `Csv.v` | |
| `exfor_field.py` | `Field.v`, `Print.v`, `Show.v` | |
| `exfor_reference.py` | `Dicts.v` (`parseX4Year`), `Field.v` | |
| `exfor_dicts.py` | `Dicts.v`, `Library.v` | the contents of the dictionary files are `ShippedDicts.v` (all 18 files, line by line) and `Shipped.v` (the keys of 09 and 33, which the grammars contain; C89_shipped checks that they are) |
| `exfor_particle.py` | `Particle.v` | |
| `exfor_reactions.py` | `Reaction.v` | the `__main__` block |
| `exfor_grammers.py` | `Grammars.v` | grammars that no code uses (116-126) |
| `pyparsing3.py` | `Pyparsing.v`: the elements those grammars are made of; their loops and their recursion are bounded by the length of the text, and C93 proves that the bounds cut nothing off | error messages and positions, results names, packrat, ignorables, the recursion limit; `pyparsing2.py` (Python 2) |
| `exfor_column_parsing.py` | `Columns.v` | |
| `exfor_dataset.py` | `Dataset.v` (values), `Heap.v` (shared lists), `Print.v`, `Csv.v` | `sort` with a comparison that raises |
| `examples/get-entry.py` 125-198 | `Client.v` | argparse; printing is the list of what `print` is given |
| Python's `repr(float)`, `float(text)`, `format(x, '.12g')`, `csv.writer` | `Repr.v`, `PyFloat.v`, `Csv.v` | |
| SQLite | `Sql.v`: the statements that the code can produce | other SQL (`OutsideModel`) |

`OutsideModel` is not a Python exception: a function of the model answers with it where the model does
not say what Python does (other SQL, arguments of types that the callers never pass).  Theorems that
say how a call can end name it where it can occur.

## Tests of the model

The correspondence of model and source is not provable, so it is tested.  `Conformance/*.v` take the
inputs and the expected values of `x4i3/tests/test_*.py` as literals and run the model on them, with the
shipped dictionaries.  Each file ends in a `Check` by computation that no case differs, so the build fails
when one does.  The results are not used in any theorem.

| file | taken from | left out |
|---|---|---|
| `TestFields.v` | `test_exfor_fields.py` | `keys()` and subscripts of a monitor field |
| `TestReactions.v` | `test_exfor_reaction.py` | `asList`, two `assertRaises` |
| `TestEntry.v` | `test_exfor_entry.py`, `12898.x4`, `E0783.x4` | lines 291-320, compared there with a tolerance; subscripts of sections |
| `TestDataset.v` | `test_exfor_dataset.py` | |
| `TestDatabase.v` | `test_exfor_full_integration.py` with the entries it retrieves | |

`test_exfor_manager.py` (queries on the index file) is not included.

`math.acos` is given by a table of its values at the cosines of these entries.  The model also reads and
prints 122 of the 124 entries in `x4i3/tests/data/db` (done once, not part of the build) without meeting
`OutsideModel`; two files above 60 KB were left out.

`RealEntries.v` has the texts of a hundred entries of the library among the project's test data.
`RealEntriesWell.v` checks that all of them are well-written in the sense of `Spec/WellWritten.v`, so that the
theorems about well-written entries (C87-C89, C92, C94, C95) are about files as they exist, and draws the conclusion for
them.  Of the 122 different entries there, 120 are well-written; it says which two are not and why.
All but two of the hundred also meet the conditions under which the data sets are simplified without an
exception (`real_simplified`); the two have pointers in the headings of COMMON (compare C46).
`RealEntriesFound.v` checks that 236 of the 241 data sets of these entries (pairs of a subentry with DATA and
a pointer of its reactions) are written in full in the sense of `Spec/Found.v`, so that C94 and C95 say
what their reactions and numbers are (`real_numbers`).  The five others are named there: one is a ratio of
unlike quantities (C94_unlike), four have a column of another pointer in COMMON (C94_common_refuted).

## Plan per property

Status of each property is kept in `MANIFEST.json`.

| property | model | proof |
|---|---|---|
| C01 | `unique` on lists with a boolean equality | induction on the list |
| C02-C04 | `parseFORTRANNumber` over the latin-1 model of `strip`, `count`, `replace`, `float()` | case analysis; for C04 a decimal literal grammar and its value, then lemmas on the scanner |
| C05, C21, C27, C28 | the line loops, as folds with explicit state | induction over a description of the layout (blocks and junk) |
| C06 | `list_of_dicts_to_table` | induction |
| C07 | `withinXPercent` on doubles | SpecFloat algebra (commutativity); refutation by computation |
| C08-C15 | manager: key check, criteria assembly, SQL fragment, result map | lexer/parser lemmas for the SQL text; sortedness and grouping invariants; for C12 with any pattern, LIKE as an inductive relation (Spec/Wildcards.v) |
| C16, C17 | entry factory on lines; bytes/str mismatch | induction over file layout; refutation by computation |
| C18 | cache as a state machine with failing loads | invariant over histories |
| C19 | the two tables | exhaustive computation |
| C20-C26 | X4Entry methods | dictionary invariants; refutations by computation |
| C29-C32 | BIB section and plain field, repr as text | invariants of the field loop; print/parse round trip |
| C33-C37 | DATA section | arithmetic of 11-column slices; round trip for at most 6 columns |
| C38, C39 | parsers with mutable `icol` fields; two-thread step semantics | state-independence lemma; refutation by a schedule |
| C40-C45 | column parsers | SpecFloat facts, list lemmas |
| C46-C50 | data set | list/loop invariants; refutations by computation |
| C51-C54 | process/reaction model | arithmetic over product lists |
| C55, C56 | particle names, element table | string lemmas, exhaustive computation |
| C57, C58 | dictionaries | computation; induction |
| C59 | `parseX4Year` | case analysis |
| C60 | monitor line loop | refutation by computation, positive part by induction |
| C61 | download as a sequence of atomic file operations with a crash after any prefix | invariant over the operation sequence |
| C62 | repr of subentries and entries | refutations by computation; round trip of sections from C31 and C37 (`ReadBackLemmas`, `SectionsBackLemmas`, `TableBackLemmas`) |
| C63-C65 | simplification | case analysis of all column parsers; table invariants |
| C66 | `getDataSets` twice | the entry that is left behind has the same sections up to the cached metadata |
| C67-C70 | pyparsing elements and the grammars | relation between token sequences and parse results, by induction on the reaction; printing is inverse |
| C71-C73 | AUTHOR, INSTITUTE, REFERENCE with the real grammars | induction over the written list |
| C74, C75 | `Heap.v`: data sets as objects | frame invariant (disjoint addresses) over all programs |
| C76, C77 | csv files; abundance table | writer/reader round trip; computation |
| C78 | text of an entry to cross sections | composition of C20, C21, C27-C36, C46, C68, C79 |
| C79 | which columns are read | the table of readings, each parser against it |
| C80-C84 | doubles | Flocq's correctness of rounding; shortest numerals; error bounds |
| C85 | frame of a distribution | computation on headings, composition with printing |
| C86 | reactions of known codes are read | case analysis on the code tables, sums of charges, composition with C67 |
| C87 | entries that keep to the format are read | totality of every parser on the texts of Spec/WellWritten.v, shape of merged tables, composition with C72, C73, C78, C79, C86 |
| C88 | what has been read can be printed | nesting levels of the grammar's results (Proofs/ShapeLemmas.v), compounds of the grammar are keys of the dictionary, units of simplified columns, invariants of field, bib, subentry and data set; converse by induction over elements |
| C89 | dictionary files and the shipped ones | inversion of the loading functions; one computation over the text of the shipped files; composition with C87 and C88 |
| C90 | reaction codes in full | the grammar lemmas of C67 for compounds, sums, X and parentheses; every object they make has a charge, a mass and a name (`sturdy`), so the residual and the text can be worked out |
| C91 | isomer ratios and sums | `repack` concatenates the tokens of one code per state; the flat sequence of reactions and operators is an expression (`ending` keeps its last term), so the compound grammar reads it as the pieces of `states_apart` |
| C92 | search, read, print | `factory_spec` gives the selected blocks, `chosen_well` that they are a well-written entry (the first selected block has the entry number in its columns 15-19 because all selected numbers begin with it), then C88; `last_such_back` relates subentries to blocks |
| C93 | the grammars against rules without bounds | the rules are an inductive relation (Spec/Peg.v) over grammars as data (Spec/Grammar.v); determinism by mutual induction; every repeated element consumes something and every recursion is guarded, so the elements of the model, unrolled as deep as the text is long, follow the rules |
| C94 | data sets of pointers in well-written entries | columns kept by setData are a filter of the headings by pointer; composition of C30, C36, C46, C61, C79, C87, C90 and C91 |
| C95 | from a search to the numbers | composition of C92 and C94: the entry is read from the chosen blocks (`entry_from`), in which the last subentry of a number is the last block of that number |
| C96 | what str(entry) shows | case by case along `make_field` with the readings of C67-C72 and the totality of C87 and C88; the sections and subentries by their sorted keys; the only field without a tag is that of C96_repr |
| C97 | headers, legends, citations | what one BIB section says (`bib_said`, field by field as in C96), two of them merged by C50, the texts by computation; simplifying leaves the metadata alone |
| C98 | examples/get-entry.py | both lookups give an entry read from the blocks 001 and num (`one_entry`; `filtered_file`: taking subentries away from the dictionary afterwards is reading only the others), then C94-C97 |
| C99 | damaged texts | the shape of what each grammar returns (GroupLemmas), by rules for its elements; then every operation that can raise is bounded along the reading functions (`okp`), with handlers taking exceptions off the list; a witness for every entry of the tables (Spec/Damage.v) |
| C100 | exceptions of getDataSets and getSimplifiedDataSets | what X4Entry leaves behind has the class that belongs to its keyword (`right_entry`, by invariants over the dictionaries); every operation that can raise is bounded (`okp`; `pokp` for programs over the attributes of the parsers); with `naming`, only TypeError comes from str() of a reaction (induction over the elements of combinations); a witness for every entry of the tables |
