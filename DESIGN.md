# Formal model of WeTextProcessing in Rocq (Coq 8.16.1)

The properties are in `properties.jsonl`. This file says, for each one, what is modelled and how it is proved.
Everything is a shallow, total, computable Gallina transcription of the Python/C++ code, one definition per
function, each with a comment citing file and lines. Exceptions are values. Calls into pynini/OpenFst, the operating
system, the digest and the clock are parameters (functions, relations or step relations) over which every theorem
quantifies; what is assumed about them appears as an explicit hypothesis of the theorem.

Layout of `rocq/theories`:

* `*Model.v`  - transcriptions of the code, no proofs;
* `*Spec.v`   - small specifications independent of the model's helpers;
* `*Proofs.v` - lemmas;
* `Props*.v`  - the property theorems only, each closed by `exact`, with `Print Assumptions` and a non-vacuity example.

## Plan per property

### Token wire format (C01-C10)
`TokenModel.v` transcribes `tn/token_parser.py` as an index/char state machine over lists of code points
(`IndexError` and running out of loop fuel are distinguished error values). `TokenSpec.v` gives the language as an
inductive grammar. C01: soundness and completeness of the state machine against the grammar by an abstraction from
(index, char) to the unread suffix and induction on the fuel/suffix. C02: the two bad error values are unreachable.
C03: induction on the value. C04, C06-C08: induction on tokens over the serialiser, through C01. C05: grammar side
condition `NoDup`. C09, C10: induction with an offset accumulator.

### Alignment (C11-C18)
`AlignModel.v` transcribes `tn/alignment.py`. The selected path is any list of arcs whose non-zero input (output)
labels spell the input (output) bytes: that is the only assumption about compose/shortestpath. C11 induction on text.
C12-C15: loop invariants relating offsets, token index, and owned intervals. C16: unfolding plus C12/C14/C09.
C17: both entry points call one candidate search. C18: the walker with an explicit visited set over finite machines.

### n-best search (C19-C25)
`NbestModel.v` transcribes `_UniqueOutputPathStream` and `_normalization_candidates`. Lattices are finite lists of
(output, weight); `shortestpath(unique, nshortest=k)` is any function returning k best distinct outputs in
non-decreasing order, with arbitrary ties (a fresh choice for every call). heapq is modelled by its contract (pop
returns the least element; pushing an entry equal to one in the heap is the TypeError Python would raise). C19-C21 by a frontier invariant
(everything unseen is >= the frontier minimum), refinement to "sort, de-duplicate, take n". Weights are exact
numbers; a separate theorem shows what fails with binary64 rounding.

### Cache (C26-C39, C52)
`CacheModel.v`: file system of inodes and directory entries, processes as small-step programs, one step per system
call, crash = a process stops for good and its lock is released. C27-C31 by inductive invariants over all
interleavings. C26 by case analysis of `_load_path`. C33: injectivity of the canonical JSON writer. C34: framing
lemma and a refutation witness. C35-C36: loops over an oracle of short reads/writes. C37-C39: path algebra.
C52: the six `cache_config` dictionaries as functions of the constructor options.

### Grammar (C40-C46, C56-C88)
`Fst.v`: the expressions pynini graphs are built from (cross, class, table, concat, union, star, weight, compose,
project, rewrite) with a relational semantics over code points. `GrammarModel.v`: the builders of `Processor`.
`ZhTnModel.v`, `ZhItnModel.v`, `JaTnModel.v`, `JaItnModel.v`: the Chinese and Japanese grammars, rule by rule, for
every setting of their options; `EnItnModel.v`: the English inverse grammar; `EnTnModel.v`: the English normalisation
grammar. `Data*.v`: the `.tsv` tables, generated by `tools/gen_data.py`. Specifications: `GrammarSpec.v` (valid text, least weight), `NumeralSpec.v` (value of a Chinese
numeral, C45), `ShapeSpec.v` (the token types and fields of each grammar as tables; `within`: pieces found in a text
in order; `pieces`: a text cut into the parts its tokens stand for; `spaced`: the same with white space between the parts).
C40: induction on strings. C41 and C46: algebra. C42: each rule's tagger is unfolded into its templates (literal text
and field graphs), which are read by a checked scanner. C43: the same template lemmas also
say where the values come from. C44: each template has a
verbalisation, and rewriting is total; `FstEval.v` lists all outputs of a graph whose closures consume input
(`loopfree`, checked for the ten graphs), so the outputs are finitely many and the search theorems C19-C24 apply to
the shipped grammars: `normalize` returns (`C44_*_normalize`), and `GrammarWitness.v` runs it inside Coq. C45: compositional value lemmas for each digit block. `EnglishSpec.v` has the texts the English normaliser is promised to take; where it raises, evaluation of
the graphs inside Coq shows that there is no tagging (`C44_en_tn_refuted`). C57: C44, plus: reordering keeps valid text
valid (`EngineFull.v`, which also builds an engine answering `tag` and `verbalize` for any graphs). C56 is false: two engines, each with its own order of ties, are run on one text.
C58: `EnglishNumeralSpec.v` gives the value of an English number name. The names of three digits are a table checked by
computation, longer ones are composed of them by induction on groups; the rewrites of cardinal.py are described on
lists of words, which gives every reading with its cost, and the least is found by cases. The token then goes through
the verbalizer of the whole normaliser.
C59: `EnglishSpokenSpec.v` gives the value of a spoken number, on its words without "and". The grammar's padded digit
groups are described by induction on the scales, the removal of "and" and of leading zeros as functions of words and
digits. The round trip with C58 compares the two values word by word. C60: on top of it; the last words of spoken
numbers and the endings are finite tables, compared by computation. `EnItnVerbal.v`: what the whole verbalizer does with
one token, from what the token's rule does with it.
C61: `ZhSpokenSpec.v` gives the value of a spoken Chinese number by recursive descent. Each padded block of digits of
the grammar is described by the value of what it reads. The cost of a reading depends only on the sorts of its words;
the finitely many sequences of sorts are compared by computation with every way of cutting them up. `TokenVerbal.v`:
a token with one value through a verbalizer of any grammar. The round trip goes through the readings of C45.
C62: `EndToEnd.v` takes a cheapest tagging and a cheapest verbalisation to the answer of `normalize`, for any grammar.
`Apart.v` decides which rules cannot read text made of given characters; what is left for such a text (cardinals, the
unit 两, single characters) is compared, in every way of cutting, by the costs of C61.
C63: `TokenRun.v` reads a text as tokens with an automaton, `Boundary.v` shows that taggings, reordering and
verbalisations of a cut text are those of the parts joined; what that needs of the rules (spaces at the ends of tokens,
closed braces) is decided by analyses of the graphs, run on each grammar in `BoundaryRules.v`. C64: `PlainChar.v` has each
stage of the postprocessors on one character, `PlainRules.v` the one token of such a character, and C63 joins them.
C65: `ZhTnRead.v` and `ZhTnTag.v` describe what each rule reads of signs, digits, points and percent signs (`Letters.v`
decides which characters a graph reads and writes); the cheapest way to cut such a text is found by induction on the
tokens (`ZhTnTag2.v`); `OneToken.v` takes a text that is one token to its one answer, for any grammar.
C66: `Whole.v` bounds from below what a graph can cost (an analysis proved sound), so a text cut in two costs at least
twice the cheapest rule. C67: `Fields.v` and `ZhWhole.v` take a text that one rule reads whole, with any fields, through
tagger, reordering and verbaliser; `ZhDate.v` and `ZhDate2.v` have the texts the date rule reads and the one reading of each.
C68, C69, C70: `ZhAmount.v`, `ZhMoney.v` and `ZhTime.v` do the same for fractions, money and times: which rules can read
the text whole, the one token of the cheapest, and its one verbalisation, with the values of the numbers from C65.
C71, C72: the Japanese counterparts. Each Japanese rule has the preprocessor in front of every part; `JaApart.v` and `JaDate.v`
show that it keeps texts of digits, signs and separators. `JaNumber.v` and `JaNumber2.v` have the one numeral the number graph
writes and its value, `JaTnRead.v` and `JaTnRead2.v` why no other alternative reads such a text, `JaPost.v` the postprocessor
with its out-of-charset marks.
C73, C74, C75: `JaFraction.v`, `JaMoney.v` and `JaTime.v` to `JaTime3.v` for Japanese fractions, money and times; `JaHead.v` has
the two analyses (first character, all characters) that rule out units and list entries as rivals.
C76: the Japanese inverse normaliser. `JaSpoken.v` and `JaSpoken2.v` follow a left-to-right evaluator of numerals through the
number graph: whatever it reads has the value of the digits it writes. `JaSpoken3.v` cuts a numeral the way the graph does, so
that every numeral without 一十 is read; `JaTen.v` shows that the normaliser never says 一十. `JaSpoken4.v` adds signs, decimals
and the rival alternatives, `JaItnSaid.v` the way from one rule's reading to the answer.

C77: Japanese ordinals. `PropsJaOrdinal.v` cuts 第 or 番目 off the text and reads the rest with the theorems behind C76; every rule as cheap
as the ordinal rule is shown not to read a text of these characters, and the listed word 十八番 not to be one of them.

C78: Japanese quantities. `JaUnit.v` proves that a text made of a numeral and a word that continues no numeral is cut in one way only
(`cut_number`), and what the rule of measures reads in the numeral. `JaMeasure.v` goes through the tables of units and counters and
shows which of them may begin inside a numeral (only 千キロメートル matters). `PropsJaMeasure.v` compares the rule with every other rule.

C79, C80: Japanese amounts of money and dates. `Fields2.v` reads a field of a token back with the graph of its value and shows that a
quoted value is cut in one way only. `PropsJaItnMoney.v` uses `cut_number` for the two parts of an amount. `JaItnDate.v` shows that the
table of months lists exactly the numerals of 1 to 12 and the table of days those of 1 to 31, and that a date is cut in one way;
`PropsJaItnDate.v` goes through the four alternatives of the tagger and of the verbaliser.

C81, C82: Japanese fractions and times, in the same way. `PropsJaItnFraction.v` cuts a fraction at 分; `PropsJaItnTime.v` shows which numerals
the tables of hours, minutes and seconds list and that a time with minutes has one token.

C83: the Japanese round trips, from C71-C75 and C76-C82. `JaRound.v` shows that the normaliser never says 一十 in a year, a month, a day,
an hour or a minute, which is what the theorems about the inverse normaliser ask for.

C84: dates of the Chinese inverse normaliser. Its rules have negative weights, so `Least.v` computes, for texts of given characters, a lower
bound on the cost of reading them and an upper bound on how many characters of a kind are read, both proved sound for the denotation;
two tokens then cost more than the date rule and no other rule reads two of 年, 月, 日, 号. The specification is `ZhItnDateSpec.v`.

C85: percentages of the Chinese inverse normaliser. A token that begins with 百, 分 or 之 is a percentage or a single character; `begins`
(JaHead.v) decides this for all other rules by computation. The number behind 百分之 is then read whole because every cut of it is dearer (`cuts_dear`, ZhItnTag.v).

C86: fractions of the Chinese inverse normaliser. `fraction_tokens` (ZhItnFraction.v) walks over the denominator: a token that ends before 分之 is
a cut of the number and dear, a token that covers 分之 is the fraction itself or a percentage whose 百 ends the denominator, which is dearer too. The verbaliser is
then exact on the reordered fields (`fraction_verbal`, ZhItnFraction2.v).

C87: train numbers and number plates of the Chinese inverse normaliser. On their characters every token of every rule costs at least 10000 (`plate_floor`),
which is what the whole text costs as one token, and no other rule begins with a kind of train or a province (`rules_start`). Both graphs write each character by
itself (`maps`, ZhItnPlate.v), so their reading is unique. What is meant is in ZhItnPlateSpec.v.

C88: telephone and identity numbers of the Chinese inverse normaliser. On the names of the digits every token of every rule costs at least 10600, and only a number
costs just that (`rules_dear`, `whole_dear`). In the verbaliser the same reading costs nothing, every other one more (`cardinal_runs`). The character sets of C87 and C88 are
trees of the standard library (MSetPositive).

### Command line and helpers, C++ runtime (C47-C51, C53-C55)
Direct transcriptions, induction on strings and lists. `CppModel.v` is the C++ runtime; C51 compares both parsers with
the raw reading of a stream (`CppSpec.v`), for any alphabet encoding that keeps ASCII apart, then for UTF-8.

## Trusted base
* Coq's kernel (8.16.1) and the fact that the transcription says what the Python and C++ say. Each definition cites
  its lines so that this can be checked by reading.
* `Print Assumptions` follows every property theorem in the `Props*.v` files. All print "Closed under the global
  context" except `C19_float_weights_exact`, which is about real numbers and lists the standard library's
  `ClassicalDedekindReals.sig_not_dec`, `ClassicalDedekindReals.sig_forall_dec`,
  `FunctionalExtensionality.functional_extensionality_dep` and `Classical_Prop.classic`. Flocq is used in that file
  only and adds no axiom.
* pynini and OpenFst are external. What is assumed of them is written as hypotheses of the theorems:
  `search_oracle` (n shortest unique paths are the n cheapest strings, ties in any order, `.paths()` cheapest first),
  `best_oracle` (the single shortest path is a cheapest string), `path_oracle` and `spells` (the constrained path reads
  and writes exactly the two texts). `NbestWitness.v` has an engine satisfying all three.
* Python's `heapq` is used by its contract. Weights are integers in the model; `C19_float_weights_exact` says when the
  floats of the program agree with that and `C19_float_bound_refuted` that they need not.
* Python integers are unbounded; strings are lists of code points; `str.isspace` is the table of Python 3's Unicode data.

* The cache model (`CacheModel.v`): one key; a POSIX file system of inodes in which rename, unlink, mkdir, rmdir, open
  and each read or write are single steps; an answer to a listing is a snapshot; `flock` is an exclusive lock that a
  dying process gives up. Which calls may fail (`faulty`) is a parameter of the world. Loss of power (unsynced data)
  and the Windows branches are not modelled. The digest, the JSON reader and writer and "the bytes are a readable FST"
  are parameters (`env`); what a theorem needs of them is in `format_ok`, `identity_ok` and the collision-freedom
  hypothesis. The history fields of the state (`pub_of`, `frozen`, `sealed`, `built`) are never read by the programs.
  `CacheRun.v` executes the model; `CacheWitness.v` has the concrete caches and schedules.

* JSON (`JsonModel.v`): the text `json.dumps` writes for the cache keys and manifests and a transcription of
  `json.loads`, on values without floats (none is hashed or written to a manifest). Not modelled: the recursion limit
  of `json.loads` (a `RecursionError` on very deep input) and lack of memory. JSON read back and the injectivity of the
  canonical form are theorems, so the cache theorems need no hypothesis about JSON except where `loads` is a parameter.
* Names (`StoreModel.v`): `pathlib` and `os.path` on POSIX as lists of parts; two leading slashes count as one; the root
  is already resolved. SHA-256 is any function to 64 hexadecimal digits; a theorem that needs it to be collision-free
  names the two byte strings that would have to collide.
* Reading (`FileSpec.v`, `FileProofs.v`): the buffered reader is modelled as reads at an offset that may return any
  non-empty prefix. `among` lets other processes change the state before every call.
* The lock (`LockModel.v`): times are rational numbers; float addition and subtraction are followed by an arbitrary
  rounding, which the bound on the number of attempts takes to be the identity. `float(text)` is a parameter. The
  owner record is an arbitrary byte string.

* The C++ runtime (`CppModel.v`): `std::string` is a list of bytes, `int` counters are unbounded, glog's `CHECK` and
  `LOG(FATAL)` end the process, `std::unordered_map` keeps the last assignment per key. Composition and shortest path
  (OpenFst) and reading the FST files are not modelled.

* The command line (`CliModel.v`): argparse for whole option names; abbreviations, the word "--" and negative numbers
  as values are refused by the model. Text files are decoded texts. `str.lower` is exact where its result is compared
  with ASCII words (only U+0130 and U+212A lower to text with an ASCII character).

* Grammars (`Fst.v`): `denote` is what pynini is taken to mean by each operation. Labels are code points instead of
  bytes (every string, table and class in the grammars is made of whole characters). `cdrewrite` is the left-to-right
  obligatory rewriting of Mohri and Sproat, with the left context read on the output side and the right one on the input
  side; where several matches start at one place any of them may be taken. `pynini.lib.tagger.Tagger` is a rewrite that
  inserts `<tag>` and `</tag>`. In a pynini string a backslash before a backslash or a bracket is an escape and any
  other backslash stands for itself. `string_file` reads lines `input TAB output` (or one side for both). `optimize`
  is taken to keep the relation and the least weights. Weights are integers in ten-thousandths. The NUL character is
  not a valid character.
* Check of the transcription: outside this repository the extracted graphs were run on every line of the project's own
  test data for the four grammars (1202 lines, all option combinations the tests use); the expected text is always
  among the cheapest outputs. In 56 lines there are several cheapest outputs (mostly inverse normalisation of times,
  whose tables have duplicate rows); which one pynini then returns is not modelled. The same was done for the English
  inverse grammar: 485 of 487 lines agree, the other two are the empty text. For the English normalisation grammar the expected
  output is among the model's cheapest outputs on all 11 lines of the whole normaliser's test data.
* The English normalisation grammar (`EnTnModel.v`). Weights are integers in hundred-thousandths. One rule, tn/english/rules/date.py:66-71,
  is the closure of a cdrewrite over VCHAR instead of its closure, and its meaning is left open: the model takes an arbitrary
  graph `ys` in its place and the theorems hold for every one (`loopfree ys` where graphs are evaluated). The number names of
  tn/english/rules/cardinal.py:40 are read from an archive (a .far file); the model writes them as a graph, and `tools/check_far.py` compares
  that graph with the archive. The table of punctuation characters is that of Unicode 14 (Python 3.11's unicodedata).
* Tables: `tools/gen_data.py` copies each `.tsv` file line by line into a Coq list of strings.

Not modelled: pynini's own algorithms, logging, and process start-up.
