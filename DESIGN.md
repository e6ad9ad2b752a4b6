# Formal model of jimlawton/h800 in Rocq (Coq 8.16.1)

## Layout

* `rocq/theories/Py.v` - the fragment of the Python run time the code uses:
  exceptions as values, insertion-ordered dicts, slices, string methods.
* `rocq/theories/M*.v` - the model, function by function; every definition cites
  the file and lines it models.
* `rocq/theories/S*.v` - specifications, written without reference to the code's
  helpers (bit weights, arrays, columns, sections of a deck, ...).
* `rocq/theories/L*.v` - lemmas and proofs.
* `rocq/theories/P*.v` - the property theorems only, each closed by
  `exact <lemma>`, with `Print Assumptions` beneath it and an `Example` showing
  the hypotheses are met by a concrete non-trivial case.
* `rocq/theories/TTests.v` - not theorems about the model but tests of it: the
  calls and expected answers of the project's own unit tests, replayed on the
  model (generated by `meta/conformance.py`, which reads the tests as text).
* `meta/` - `props.py` (texts of the properties), `notes.py` (what is missing in
  the partial ones), `gen.py` (writes `P*.v`, `properties.jsonl`,
  `MANIFEST.json`), `conformance.py` (writes `TTests.v`), `check_tables.py`
  (compares the tables of the model with the source text).
* `seeded/LOG.jsonl` - wrong programs the theorems were tried against.

## How the code is modelled

* Python ints are `Z`, unbounded; strings are lists of code points; dicts are
  association lists in insertion order; exceptions are values (`res A` = `Ok a`
  or `Err e` with the exception class).
* An operation on a mutable object is a function
  `state -> args -> state * res out`.  The state is returned also when an
  exception is raised, so what a failing call leaves behind is visible.
* Objects that can be shared (registers and register groups, contexts and
  records) live in an explicit heap and are named by references; a memory word
  never moves between cells, so a reference to one is its address.
* Iterators are the objects themselves, with their cursor in the state, as in the
  code; a `for` loop is a fuelled recursion over `next`, and the lemmas show that
  the fuel given is enough.  Where running out of fuel is possible (nested
  includes, C65) it is the value `RecursionError`, and the theorems are for all
  amounts of fuel.
* Histories are lists of calls, executions are folds; statements about them are
  proved by induction on the list, with no bound on its length.
* The file system is a partial function from names to contents (a function that
  changes, for the tools that write); reading and writing do not fail otherwise.
* What the model does not fix is a parameter of the functions concerned, and
  the theorems quantify over it: `upper` (`str.upper`), `extract` (the matcher of
  the package fuzzywuzzy), `pct` (formatting of a float percentage; C137 takes
  for it `pct_py` of `MFloat.v`, which computes what Python does).

## Plan per property

| ids | modelled | proof |
|---|---|---|
| C01-C19 | `bitfield.py` complete (`MBitField.v`), Python `<< >> & \|` as `Z.shiftl/shiftr/land/lor` | bitwise extensionality against a weight table per layout (`SBits.v`); C19 by refinement to a boolean array, induction over the history |
| C20-C24 | `word.py` | corollaries of the slice lemmas |
| C25-C31 | `memory.py` | refinement of a bank to a function from addresses to values, induction over the history |
| C32-C41 | `registers.py` with a heap | finite tables by computation; histories by a simulation with an 8 by 32 array |
| C42-C55, C96, C136 | `instruction.py`, `instructions.py`, tables verbatim | arithmetic over all integers, case analysis over the classes; C52 also by computation on the whole listing |
| C56-C69 | `punchcard.py`, `arguscard.py` | induction over lines, over the include relation |
| C70-C75, C97 | `SymbolTable`, `SymbolTableEntry` | induction over histories |
| C76-C84, C112, C113 | `buildSymbolTable` and the queries of `symbol_table.py`, with the messages printed | induction over the deck against a declarative reading of it (`SSymbols.v`, `SDiag.v`) |
| C85-C91, C98-C102, C114, C116 | the scripts in `tools/`, after option parsing | arithmetic, induction over lines, sources and symbols |
| C92-C95, C103-C107, C115 | `charset.py`, `context.py`, `assembler.py` | computation, record algebra, induction over passes |
| C117-C122 | everything the tools and the instruction classes print, with `--verbose` and exit messages (`MVerbose.v`) | a relation between verbose and quiet runs, closed under sequencing; induction over a declarative reading order (`SVerbose.v`) |
| C123-C131 | the command lines of the scripts (`MOptions.v`), wrong use, numbers, and quiet runs (`LQuiet.v`) | a declarative reading of a command line (`SOptions.v`) proved equivalent to the parser; induction over the words |
| C132 | what the methods of `SymbolTable` print (`MSymOut.v`) | induction over histories of calls, on top of the invariant of C70-C73 |
| C133, C134 | decks given lines and a file; genpages run again on its own output (`SAgain.v`) | induction over the number of runs, with lemmas on the lines of appended text |
| C135 | all that `buildSymbolTable` prints, with the dumps of dictionaries (`MDump.v`) | induction over the cards, on top of C112 |
| C137 | the floating-point rates of `check-instructions --count` (`MFloat.v`: 53-bit rounding, ties to even, `%6.2f`) | error bounds and monotonicity of rounding, over all integers |
| C138–C140 | everything `list-instructions`, `listing`, `check-symbols`, `find-symbols` and `list-symbols` print | spec `STranscript.v`: relations between cards and lines, over all files; for `listing` the files as they change |
| C141 | the answer of `find-symbols` | spec `SFound.v`: the definitions in the order of the cards, collected by segment, subsegment and kind; invariant of the table under `buildSymbolTable` |
| C142, C143 | the scripts as commands: exit status, what is said about wrong command lines, the files left (`MProcess.v`) | spec `SProcess.v`: a relation between a command line and the reason for refusing it, proved to cover exactly status 2; on top of C123-C140 |
| C144 | texts as lines whatever ends them (`readlines`), through every tool | spec `SEnds.v`: an inductive definition of the lines of a text; two file systems with the same lines give the same run |
| C145 | the exceptions of refused calls on bit fields and register files | spec `SFaults.v`; on the simulation of C192 |
| C146 | check-instructions on the same files in another order | counts of cards do not depend on their order (`count_of`), the table keeps the order of the mnemonics |
| C147–C151 | the commands and the symbol table end to end, in terms of the text of the files only | spec `SSource.v`: lines with includes in place and columns of a line, no decks or cards; a simulation between lines and cards (`agrees`) composed with C64, C76–C79, C88–C90, C121, C142 |
| C152, C153 | the attributes of cards, second names included; subscripts with a step (`MAttr.v`) | spec `SAttr.v`: a table of columns; positions selected by a step; on top of C27, C05, C06, C60, C61 |
| C154 | list-symbols, check-symbols and find-symbols from the text of the sources to what is written | spec `STextSym.v`, no decks or tables; on top of C140, C150 |
| C155, C156 | genlines and genpages as commands; the other tools after genpages | on C129, C91, C142; spec `SIdle.v`: a source with idle lines between its lines, simulated line by line through C147, C148, C154 |
| C157 | the same lines divided into files in other ways | the text-level claims C147 and C148 depend on the texts only; a table sorted by an asymmetric order is determined by its rows; for the symbol tools lines with the same text have the same key columns (C172) |
| C158 | labels of ASCII sources | `raises` fixes the case mapping on ASCII texts only; the label grammar is then decidable and C150, C151 are restated with it |
| C159 | `repr()` of strings; complaints told apart | `MRepr.v`; literals are read deterministically and are self-delimiting, by induction on the text between the quotes |
| C160 | what a listing determines | from C149; each listed line is cut at the first blank, the next blank and the line end |
| C161 | all that the tools print, with every option, said of the text | from C120, C121, C138, C140 and C141 through the agreement of cards and lines (C152); the descriptions are shown to determine the output |
| C162 | sources that cannot be read: what is said, how the run ends, and that these are the only ends | induction over the depth of reading gives the result from the text and back; the first unreadable file splits the arguments; the files before it as in C161 |
| C163-C164 | `assembler.py`: what is logged and printed, which records are blamed | the log is computed with the passes; cases of the passes as in C95 (`LAsm.v`), the file part from C161 and C162 |
| C165 | the symbol tools, their files in another order | C161 twice; sorted lists with the same elements are equal; with segments of their own the place of a file does not matter (`LSwap.v`) |
| C166-C167 | words of a bank used through their field (`MLive.v`) | the refinement of C25 without the bounds, every cell a field of its own; the bounds as an invariant (C09) |
| C168 | fields of negative width (`MNarrow.v`) | no index passes the check |
| C169 | the tools agree with each other on the same files (`LAgree.v`) | from the whole outputs of C161; sorted lists with the same elements are equal |
| C170 | lines found by list-instructions and counted by check-instructions | decision of the mnemonic; first comma and white space |
| C171 | where similar names are looked for | the exact choices of C82, by segments of the text |
| C172 | the columns and places that do not matter | two runs compared through C161; lines related by `same_key` have the same operations, labels and stars |
| C173 | several files together | three runs compared through C161; counts add, later definitions replace earlier ones |
| C174 | operation codes of the manual | the code is a function of the table row (finite check lifted over all operands by C96's field lemmas); injectivity of the table |
| C175 | character set of the manual | finite comparison with Table I as written in `SManual.v` |
| C176 | masks of the manual | forms of the table row against the list of field instructions in `SManual.v`; one call per class for the other direction |
| C177 | tags of the manual | the grammar `manual_tag` of `STags.v` against C158's table theorem |
| C178 | subsegments of the manual | C150's table theorem; `subsegment` and `manual_subsegment` agree on prefixes of plain sources |
| C179 | complex addresses of the manual | C150's table theorem |
| C180 | blanks in the command code | C147 and C148 on two sources related by `same_operation` |
| C181 | operation codes known to check-instructions | C147 and a finite comparison of the code lists |
| C182 | the same files in any order and number | two runs compared through C161; tables depend on the set of files |
| C183 | programs in memory | composition of C21 (packing), C25 and C30 (memory refines an array) and C174 (operation codes) |
| C184 | the S/C column of the manual | C147 and C148 on two sources; first comma of the field |
| C185 | memory as one array | simulation: the cells of C25 and C30 at quotient and remainder by 2048 |
| C186 | registers, addresses and words | bits of C03, C05 and C34 compared by position |
| C187 | command codes and table II of the reference manual | both directions computed over the enumerated arguments of each class (LCodes) and over the codes of each line |
| C188 | control memory as one array | the object model of C35 (LRegHeap) simulated, cells read as numbers |
| C189 | `_readSource` with `recurse=False` (`MUnfollow.v`; no caller in the package) | induction over the lines against a declarative account of the text |
| C190 | the private methods of bit-fields that nothing calls (`MSpare.v`) | cases of the layout, linear arithmetic |
| C191 | `namedtuple_defaults`, `Opcode` and the calls that fill `OPCODES` (`MTuple.v`; which names Python accepts is arbitrary) | induction over the fields; the table by computation |
| C15, C16, C65, C74, C170 exact (`LExact.v`) | what the code does instead where the expectation fails | bits of the shifted range; pigeonhole on chains of files; runs of neighbours; counting |
| C02, C07, C08, C12, C23 exact (`LMisfit.v`) | the bits after assigning a number that does not fit | bits of the mask, also where it sticks out of the field |
| C78, C84 exact (`LClash.v`) | which card of which file makes the table fail, and every error counted | invariant between the table and the definitions so far, card by card |
| C29 exact (`LCursor.v`) | what a loop over a bank reaches, from the history of calls alone | the cursor counts the next() calls |
| C38, C40, C192 (`LOwn.v`) | the register file after any history, also with numbers that do not fit | simulation by 256 separate registers and the iteration places (`SCursor.v`, `SOwn.v`), a fold over the history |
| C193 (`LShare.v`) | histories that also assign groups and registers (`MShare.v`) | simulation by a store of shelves and pointers (`SShare.v`), induction on the history |
| C194 (`LForce.v`) | the symbol table and its three tools for files of any names | spec `SForce.v` (refused definitions, the definition in force); an invariant of the table over the definitions read so far |
| C195 (`LSaid.v`) | everything the symbol tools and `parse` print for files of any names, up to the exception if there is one; the table a failing build leaves (C113) | spec `SSaid.v`: cards and lines related one card at a time, on top of `SForce.v`; the relation is proved to determine the output |
| C196 (`LAny.v`) | the symbol tools and `parse` as commands, for sources of any names that may or may not be readable: three outcomes, each determining output and status | spec `SAny.v`; C195 for the readable part, C162 for the source that stops the run; the outcomes are proved disjoint |
| C197 (`LFrame.v`) | the files a tool looks at, writes and needs: a frame condition on the file system for every command line | spec `SFrame.v` (`leads_to` closes over includes); agreement on a set closed under includes gives equal runs, by induction on the depth of reading; removing a file looked at stops the run |
| C198 (`LSession.v`) | sessions: any number of commands one after the other on one file system; order and repetition | spec `SSession.v`; induction over the session with C197: agreement on what a command reads is kept by the commands before it |
| C199 (`LDyn.v`) | arguments of any type: `bitfield.py` and `Word` once more, over values that carry their type (`MDyn.v`); float arithmetic is an arbitrary function, comparisons are exact | spec `SDyn.v` (`amounts`: the call with ints that a call amounts to); the typed transcription agrees with `MBitField.v` on ints (C199_ints), every other call is refused or is a call with ints; histories by induction |
| C200 (`LDynMem.v`, `LDynMod.v`) | keys and values of any type for a memory bank (`MDynMem.v`, on top of `MDyn.v`) and keys of any type for a module (`MDynMod.v`); a dictionary finds the key that a number is equal to | spec `SDynMem.v` (`call_as`, `foreign`); refinement to `MMemory.v` with the invariant that every cell is a word; histories by induction |
| C201 (`LDynReg.v`) | registers with values and widths of any type, groups and register files with keys of any type but tuples (`MDynReg.v`, on top of `MDyn.v`) | spec `SDynReg.v` (`the_ints`: the ints among the values assigned); agreement with `MRegisters.v` on ints (C201_ints); assignments by induction |
| C202 (`LDynInstr.v`) | instructions with arguments of any type (`MDynInstr.v`, on top of `MDyn.v`); the numbers of the opcode row are ints or None | spec `SDynInstr.v` (`encodes`: the ints encoded for the arguments); refinement to `MInstruction.v`, and everything that is not encoded raises |
| C203 (`LDynWord.v`) | instruction words and constants with arguments of any type (`MDynWord.v`, on top of `MDyn.v`); the private copies of the arguments, which nothing reads, are left out | spec `SDynWord.v` (`int_ops`); refinement to `MWord.v` and `MInstruction.v`, induction on the history |
| C204, C199 (`LDynWidth.v`, `LDynRead.v`) | fields whose width is a float (`MDyn.v`); indices, lsb, msb, len, bool and repr of fields that hold a float or have one for a width (`MDynRead.v`) | spec `SDynWidth.v`; inversion of the calls that succeed, invariant over histories |
| C44, C95, C114 (`LLate.v`) | what is left when a call fails: the records after a failed resolution, the lines printed before an exception, the exceptions of the opcode makers | the models of those claims |
| C108-C111 | Python's protocols (`len`, `int`, `bool`, `for`, `in`, `reversed`, `repr`) on these classes | induction over positions, reuse of the refinements above |

## Properties that are false of the code

The property is stated as a user would expect it.  Where the code violates it the
theorem `..._refuted` proves so (for as many inputs as it is true, not just for
one), the strongest true part is proved beside it with the suffix `_partial`, the
manifest says `partial`, and its note begins with REFUTED and names the defect.
So every partial property in the manifest is either a defect of the code together
with what still holds, or - where the note says so - a defect after which nothing
is left to prove.

## Trusted base

* The kernel of Coq 8.16.1, including its virtual machine (`vm_compute` is used
  for finite tables and Examples; `coqchk` rechecks these without it).
* `Print Assumptions` says "Closed under the global context" for every property
  theorem: no axiom of the standard library is used, and none is declared here.
* `coqchk` lists seven constants of `Coq.ssr.ssrunder.Under_rel` as axioms.  They
  are parameters of a sealed module of the standard library that is loaded with
  `Lia`; no theorem depends on them.
* That the model is a faithful reading of the source.  Three things support it:
  the line references; `meta/check_tables.py`, which compares all tables with the
  source text; and `TTests.v`, which replays 290 unit tests (all of
  `bitfield_test`, `word_test`, `registers_test`, `instructions_test`,
  `punchcard_test` and `arguscard_test`; of `memory_test` the sizes, its sweeps
  over all words being instances of C25 and C30).  No code of the repository was
  run.
* That the Python fragment of `Py.v` is right: integer arithmetic, `range`,
  negative indices and slices of lists and strings, `dict` order, `str.strip`,
  `split`, `splitlines`-free line reading, `startswith`, `replace`, `find`,
  `zfill`/`%o`/`%d`/`bin` formatting, `sorted`, `int(str)`.  `LRuntime.v` proves
  for most of these that the function agrees with a description that does not
  use it (`rt_index`, `rt_slice`, `rt_dict_*`, `rt_range`, `rt_shift`,
  `rt_strip`, `rt_words`, `rt_split`, `rt_startswith`, `rt_endswith`,
  `rt_chars`, `rt_leb`, `rt_sort`, `rt_str`, `rt_bin`, `rt_pad`); line reading is
  described by C144 and `int(str)` by `py_int_text` in `LGen.v`.  What remains
  to be trusted is that these descriptions are Python's.

## Modelled

Everything in `h800/bitfield.py`, `word.py`, `memory.py`, `registers.py`,
`instruction.py`, `instructions.py`, `punchcard.py`, `arguscard.py`,
`symbol_table.py`, `charset.py`, `context.py`, and `assembler.py` from
construction to `resolve`; the bodies of all nine scripts in `tools/`.

## Not modelled

* `Word.emit` (`word.py:57-60`), an empty method; `NotImplementedException`
  (`instructions.py:439-442`), an exception class with a fixed text that nothing raises.
* The text of `--help` (it depends on the terminal; arbitrary in `MProcess.v`).
  `MTools.v` and `MVerbose.v` start from parsed options, with `parser.error` as
  `SystemExit`; `MOptions.v` adds the parsing of command lines (only switches
  without a value occur in the scripts) and the files `genpages` leaves behind;
  `MProcess.v` adds the messages of `optparse` and the exit status.  Tracebacks of
  unhandled exceptions are not output (`MProcess.v` only says which exception).  `MTools.v` has the tools without `--verbose` and
  without exit messages; `MVerbose.v` has both.
* `assembler.py` imports a module `parser_record` that does not exist and the
  external package `pylog`; the module cannot be imported as it stands.  The class
  is modelled as if the import succeeded.  Calls of the loggers, and of the methods
  `error` of records and contexts, are events (`MAsmLog.v`); what they do is outside
  the package.  Elapsed times are arbitrary texts.
* `repr` of strings and of cards (which shows an address) is arbitrary wherever a dictionary
  or a list is printed (`MDump.v`, `found_text` in `MVerbose.v`); `MRepr.v` defines it for strings, with
  the printable characters outside ASCII arbitrary, and C159 is about that definition.
* Arguments of other types than the documented ones (floats, bytes, ...), other
  than `None` where a default is `None`, except for fields and words (`MDyn.v`), memory banks and modules (`MDynMem.v`, `MDynMod.v`), registers
  (`MDynReg.v`), instructions (`MDynInstr.v`), instruction words and constants (`MDynWord.v`; the rest of the fields in `MDynRead.v`; not in any of these: complex
  numbers, objects of user-defined classes, `repr` of a field whose width is a float).  Fields of negative width, whose `maxval` is a float,
  are in `MNarrow.v` and not in `MBitField.v`.  Assigning another object to the attribute `data` of a word.
* Case mapping of non-ASCII letters (`upper` is arbitrary), the fuzzy matcher
  (`extract` is arbitrary), floats that overflow or underflow (`MFloat.v` has unbounded exponents),
  character encodings of files and of the terminal, failures of the operating
  system other than missing files, concurrent use.
* Memory and recursion limits of the interpreter.

## Seeded wrong programs

The model was changed in a scratch copy, one small edit at a time, and rebuilt;
proofs that fail are admitted one by one, and `Print Assumptions` then tells which
property theorems no longer hold without the admitted facts.  A second series was
made mechanically: one operator, constant, string, exception or branch of one
definition changed, and the build continued to the first failure (`first_failure`;
`theorems_failed` then lists the property theorems whose proofs use that lemma).
Where a proof did not fail but no longer finished, the line says so.  The log
has one line per attempt.  Where an edit survived, either it cannot be observed
through the API (the line says why) or the theorems were tightened (the line says
which).
