# Formal model of aeromet-py: design

Source: `/repo` (python), read as text.  Tool: Rocq/Coq 8.16.1, standard library only.
All Coq sources are in `rocq/theories`, built with
`coq_makefile -f _CoqProject -o Makefile && make -j4`.

## What is modelled

The model is executable Gallina that follows the Python functions one by one.
Every definition cites the file and lines it models.

| Layer | Coq file | Models |
|---|---|---|
| Python runtime | `PyBase.v` | `str` as code point lists, exceptions as values, `strip/split/replace/startswith/join`, `int`, formatting of ints |
| | `PyRegex.v` | the subset of `re` in use: a parser for the pattern syntax, a backtracking matcher (ordered list of successes), `match`, `search`, `sub` |
| | `PyFloat.v` | IEEE binary64 through the standard library's `SpecFloat`: `float(str)`, `+ - * /`, comparisons, `repr`, `format(.1f/.10f)` |
| | `PyTime.v` | `datetime` (proleptic Gregorian calendar), `timedelta` additions, `replace`, `strptime("%Y%m%d%H%M")`, `str` |
| Patterns | `AeroRegex.v` | `utils/metar_regexp.py`, `utils/taf_regexp.py`, patterns of `utils/parser.py`, verbatim |
| Library | `Utils.v` | `utils/parser.py`, `utils/split.py`, `utils/conversions.py` |
| | `Base.v` | `reports/models/base/*.py` |
| | `MetarGroups.v`, `Trend.v` | `reports/models/metar/*.py` |
| | `Metar.v` | `reports/metar.py` |
| | `Taf.v` | `reports/models/taf/*.py`, `reports/taf.py` |
| | `AsDict.v` | the `as_dict` methods |
| | `Accessors.v` | wave heights in other units |
| | `Queries.v` | the questions a caller can put to a report, and the cursors they move |
| | `Json.v` | the `to_json` methods, `json.dumps` with its defaults |
| | `Stations.v` | the station and country tables, verbatim |
| Tests | `TestVectors.v` | expected values of the repository's test-suite, replayed on the model |
| | `DocVectors.v` | the outputs shown in `doc/docs.md` and `README.md`, replayed on the model |

State is explicit: a report under construction is a record, a handler is a
function from a match and a record to `result record`, where
`result A = Ok a | Raise exn`.  The system clock is an argument (year and month
of `datetime.utcnow()`), the only part of the clock the code reads into results.
Text printed on stdout is part of the state.

Beside the model there are three kinds of files.  `Spec*.v` hold the vocabulary of the
statements and use nothing of the model but its types.  `Proof*.v`, `Out*.v` and the
`*Facts.v` files hold lemmas.  `Props*.v` hold the property theorems, each closed by one
`exact`, with its examples and its `Print Assumptions`.

| Files | Properties |
|---|---|
| `SpecLists`, `ProofLists`, `PropsLists` | C03 to C06, C50 |
| `SymRegex`, `SymFirst` (patterns run on families of texts), `Rounding`, `ReprFacts`, `FloatFacts` (binary64), `SpecGroups`, `ProofGroups*`, `ProofValues*`, `PropsGroups` | C15 to C18, C20 to C23, C25 to C29, C54 |
| `SpecRules`, `ProofRules`, `PropsRules` | C07 to C14 |
| `SpecTime`, `SpecTaf`, `TimeFacts`, `ProofTime`, `ProofTaf`, `PropsTime` | C30, C32 to C35, C55 |
| `SpecText`, `StrFacts`, `ProofText`, `PropsText` | C01, C02 |
| `TextFacts`, `RegexPaths`, `MergeFacts`, `ProofSections`, `ProofMerge`, `ProofTafText`, `ProofProb`, `PropsSections`, `SpecWords`, `ProofWords`, `PropsWords` | C28, C36, C37, C41, C42 |
| `SpecMetar`, `GroupShapes`, `ProofSlots`, `Dispatch`, `ProofFields`, `ProofMetar`, `ProofMetarText`, `PropsMetar` | C47 |
| `SpecFailures`, `Captures`, `DigitFacts`, `Outcomes`, `Keeps`, `OutTime`, `OutMetar`, `OutReport`, `OutCalm`, `ProofFailures`, `PropsFailures` | C19, C24, C40, C43 to C45 |
| `SpecAbsent`, `ProofAbsent`, `ProofAbsentTaf`, `ProofClock`, `ProofCor`, `ProofSilent`, `PropsAbsent` | C31, C39, C51 to C53 |
| `SpecTafReport`, `ProofWx`, `TafShapes`, `ProofTafBody`, `ProofTafChange`, `ProofTafChain`, `ProofTafReport`, `ProofTafHead`, `PropsTaf` | C38, C48 |
| `SpecStation`, `ProofStation`, `PropsStation` | C49 |
| `SpecTafFailures`, `OutTafTime`, `OutTafChange`, `OutTafBody`, `OutTafWords`, `OutTafHead`, `OutTafPlaces`, `OutTaf`, `ProofTafFailures`, `PropsTafFailures` | C46 |
| `SpecTrend`, `ProofTrend`, `ProofTrendCut`, `ProofTrendReport`, `PropsTrend` | C56 |
| `SpecConv`, `ProofConv`, `PropsConv` | C57 |
| `SpecRange`, `ProofRange`, `ProofRangeReport`, `PropsRange` | C58 |
| `SpecJson`, `ProofJson`, `ProofJsonReport`, `PropsJson` | C59 |
| `SpecKept`, `ProofKeptText`, `ProofKept`, `ProofKeptReport`, `ProofKeptMetar`, `ProofKeptTaf`, `PropsKept` | C60 |
| `SpecStr`, `ProofStr`, `ProofStrTaf`, `PropsStr` | C61 |
| `SpecSay`, `ProofSay`, `PropsSay` | C62 |
| `SpecMoment`, `ProofMoment`, `ProofMomentReport`, `PropsMoment` | C63 |
| `SpecDict`, `ProofDict`, `ProofDictReport`, `ProofDictSame`, `PropsDict` | C64 |
| `SpecExact`, `ProofWhen`, `PropsWhen` | exact behaviour where C24, C32, C33, C55 fail |
| `Queries`, `SpecQueries`, `ProofQueries`, `ProofQueriesReport`, `PropsQueries` | C65 |
| `SpecApart`, `ProofApart`, `PropsApart` | C66 |
| C67 | Two runs of the same text for two months, related group by group: every handler keeps the relation "equal except years, months and texts" (`parse_groups_rel`). Hours and minutes survive because adding minutes acts on the clock modulo one day. |
| C68 | The list in the text is read back by a separate reader; unparsed groups hold no blank because they are words of their section (C60). |
| C69 | The first word is quiet for the sanitizers and uncut by the section words, so both texts give the same remaining groups; adding a type and a first line commutes with every later handler. |
| C70 | No handler takes the word, so it neither moves the handler index nor the state; removing a read group from the unparsed ones takes another entry. Text level: the sanitizers treat the word as any plain word (C28, C41 exact), and the section split does not look at it. Words by first character: a check that each pattern is stuck on that character, over 47 characters. |
| C71 | Invariant of the dispatch loop: the visibility and every cloud of an accepted report come from a group without blanks through their pattern. Their codes (C47, C48, C56) then say which written group that was, and C02/C07 exact apply to it. |
| C72 | What a pattern consumes is read off its syntax tree: the classes of its characters, the greatest length, whether every path ends at the end mark. Computed once per pattern; an invariant of the dispatch loop carries it to the fields, and C60's account of the joined words to the text. |
| C73 | The raw code is never written after `__init__` (invariant of every handler), and the rest of the parse depends on the text only through it; C02_exact says when it is final. |
| C74 | The setter writes one attribute; the rows of the dictionary before and after are compared key by key, and every other question is answered without reading that attribute. |
| C75 | A continuation-passing backtracking engine with a step counter, shown to find what `run` finds; a pattern without repetition is bounded by its size weighted with the number of ways its parts can match, where alternatives with different first characters exclude each other; repetition occurs only in the patterns of the sanitising passes, which are treated one by one; lengths of the rewritten texts bound the rest. |
| C76 | Every stored group is either absent or was read by its pattern from one word without blanks, and its code is that word; for the two patterns of winds and of visibilities the possible ways of matching are listed in the order in which they are tried, and every two of them exclude each other, take the same groups, or the second is preceded by one that also fits. |
| C77 | For patterns with anchors at their two ends only, a match is the same as membership in the language of the pattern; the parts of a pattern are shown to mean finite lists of words (by enumeration over the 128 characters) or numbers of a fixed width, and the languages so built are compared with the documented codes. |
| C78 | The stored groups were read by their patterns (C76), the words these accept are known (C77), and the decoding theorems (C15-C30, C54) give the values of the documented ones; the visibilities that raise are excluded by the exact conditions of C19. |
| C79 | the patterns of a handler table have no word in common but for the listed pairs, by a computed and proved check over sets of ASCII characters; the shared words of each pair are characterised exactly from C77 |
| C80 | the texts of the groups not covered by earlier claims are the phrases a table gives to their codes (SpecPhrase), by inverting the parse and reading the named groups of each pattern; the text of a windshear list is modelled in ListText |
| C81 | every visibility and layer of an accepted report was read from a word that its code gives back, so the written groups of the code decide the verdicts proved in C07, C09, C10 and C12 |
| C82 | invariants of the handlers by position (a validity group can only come after the time group); the list of changes is followed through every insertion, keeping that each FM change ends an hour before the next FM or BECMG change |
| C83 | the greedy assignment of words to patterns is a relation, total and functional; by induction on the words the handlers either raise exactly the exception of the first bad word or none is bad, keeping the time told so far, the indicator and the lengths of the rest |
| C84 | as C83, with the numbers of maxima and minima read so far; a change keeps whether its indicator begins with PROB or TEMPO through every later rewriting, so the search of FM and BECMG for the change before is decided by the words; the changes read are an inductive relation, functional and closed under prefixes |
| C85 | the trace of the dispatcher (C60) satisfies the relation `takes` of C83; each handler sets the code of its own field, so folding over the trace gives the words of a field by the number of its pattern |
| C86 | C59 gives the member code, C73 parses it again; injectivity of the meaning of JSON by induction on values. |
| C87 | the texts are computed beside the parse, and the causes of C83/C84 exclude every other source of RangeError; the listed cardinal codes by cutting the text at its quotation marks |
| C88 | the rows by one run of a checker over the table, whose meaning is proved for every row; the reports by C49 with C47, C48 and C38 |
| `SpecCounts`, `ProofCounts`, `PropsCounts` | C45, C46 (exact lists) |
| `SpecPrint`, `ProofPrint`, `PropsPrint` | C53 (exact output) |
| `SpecBare`, `ProofBare`, `PropsBare` | C02 (exact condition) |
| `ProofExact`, `PropsExact` | C09, C22 (exact forms) |
| `SpecDated`, `ProofDated`, `ProofDatedTaf`, `PropsDated` | C67 |
| `Messages`, `SpecMessages`, `ProofMessages`, `PropsMessages` | C68 |
| `SpecKind`, `ProofKind`, `PropsKind` | C69 |
| `SpecChain`, `ProofChain`, `PropsChain` | C35 |
| `SpecVision`, `ProofVision`, `PropsVision` | exactly when an accepted visibility fails (C19) |
| `ProofDefault`, `PropsDefault` | the dates of a forecast without time or validity (C31) |
| `SpecJoined`, `ProofJoined`, `PropsJoined` | C41 exactly: the groups of a section whatever its words |
| `SpecCavok`, `ProofCavok`, `PropsCavok` | C07 exactly: when should_be_cavok answers True |
| `SpecStationText`, `ProofStationText`, `PropsStationText` | C62: the text of the station |
| `SpecForeign`, `ProofForeign`, `PropsForeign` | C70 |
| `SpecFused`, `ProofFused`, `PropsFused` | C28, C42 (exact) |
| `SpecVerdict`, `ProofVerdict`, `PropsVerdict` | C71 |
| `SpecOrder`, `ProofOrder`, `PropsOrder` | C36 exact |
| `SpecAlphabet`, `ProofAlphabet`, `PropsAlphabet` | C72 |
| `ProofReparse`, `PropsReparse` | C73 |
| `ProofAccept` | C67 |
| `SpecSpan`, `ProofSpan`, `PropsSpan` | C63 |
| `ProofAcceptTaf` | C67 |
| `ProofLayout`, `PropsLayout` | C01 |
| `Setter`, `SpecSetter`, `ProofSetter`, `PropsSetter` | C74 |
| `SpecWork`, `ProofWork`, `ProofWorkText`, `OutWork`, `PropsWork` | C75 |
| `Printing`, `SpecPrinting`, `ProofPrinting`, `PropsPrinting` | What a METAR prints before it is refused (C53) |
| `SpecByCode`, `ProofAgree`, `ProofByCode`, `PropsByCode` | C76 |
| `SpecGrammar`, `ProofMeans`, `ProofGrammar`, `ProofGrammarRest`, `PropsGrammar` | C77 |
| `SpecStated`, `ProofStated`, `PropsStated` | C78 |
| `SpecShared`, `ProofShared`, `ProofSharedWords`, `PropsShared` | C79 |
| `ListText`, `SpecPhrase`, `ProofPhrase`, `ProofPhraseTime`, `PropsPhrase` | C80 |
| `SpecBorne`, `ProofBorne`, `PropsBorne` | C81 |
| `SpecClocked`, `ProofClocked`, `ProofClockedTaf`, `PropsClocked` | C82 |
| `SpecRefused`, `ProofRefused`, `PropsRefused` | C83 |
| `SpecRefusedTaf`, `ProofSight`, `ProofRefusedTaf`, `PropsRefusedTaf` | C84 |
| `SpecGiven`, `ProofGiven`, `PropsGiven` | C85 |
| `SpecReplaced`, `ProofReplaced`, `PropsReplaced` | C61 (the line of a replaced pressure) |
| `SpecEnded`, `ProofEnded`, `PropsEnded` | C61 (the lines of the changes) |
| `SpecStored`, `ProofStored`, `PropsStored` | C86 |
| `GroupJson`, `SpecGroupJson`, `ProofGroupJson`, `PropsGroupJson` | C59 (groups and lists) |
| `ErrorText`, `SpecErrorText`, `ProofErrorText`, `PropsErrorText` | C87 |
| `SpecTable`, `ProofTable`, `PropsTable` | C88 |

## What is not modelled

* Python's import system, `abc`, typing; attribute access to private fields by users.
* Messages of exceptions of Python itself (only their class); those of the library are in `Messages.v` and `ErrorText.v`.
* `re.sub` templates with backslashes (no replacement string in the code has any).
* Seconds and microseconds of `datetime` (always zero in this program, printed as `:00`).
* The identity test `c.cover is "indefinite ceiling"` is a boolean parameter of the
  model (`same`), because the language does not define its value.
* Text printed before an exception is raised, except by the trends of a METAR (`Printing.v`).
* Unicode version: `\d`, `\s` follow Unicode 14 (CPython 3.11).

## Hypotheses that recur

* `clock_wf`, `month_wf`: the clock and the report's year lie between 1000 and 9999 and
  the month between 1 and 12.  Outside of it `strptime` of a year with fewer than four
  digits reads another text.
* Groups in the round trips (C15 to C29, C47, C48, C54 to C56) are written with ASCII digits.
  The failure theorems (C19, C24, C43 to C46) are over every text, digits of other scripts
  included.

## Trusted base

* Coq's kernel (and `coqchk`), and the VM for `vm_compute` proofs.
* The faithfulness of the model to the source: supported by the examples in
  `TestVectors.v`, which replay the expected values of the repository's own
  test-suite on the model (these are tests, not proofs), in `DocVectors.v`, which does the
  same with the outputs printed in the documentation, and by the citations.
  (`DocVectors.doc_wrong` lists the three places where the documentation is wrong.)
* `Print Assumptions` of every property theorem: see the end of each `Props*.v`;
  the result is "Closed under the global context" for each of them, so no axiom is used.
  (`coqchk` also lists `Coq.ssr.ssrunder.Under_rel.*`, members of a sealed module of the
  standard library that is loaded with its tactics; no theorem depends on them.)

## Seeded errors: how to read the log

`seeded/LOG.jsonl` has one line for each wrong program tried in a scratch copy.

* `claim` is the claim the edit was meant to break, chosen before the run (and sometimes
  corrected by hand afterwards); the run does not check it.
* `theorems_failed` is not a list of statements shown false.  A theorem is listed when its
  proof rests on a lemma whose proof no longer compiles.  The lemma may be false of the wrong
  program or its proof may merely not fit the edited text: line 85 is an edit without any
  effect, and a theorem is listed for it all the same.
* Two runners were used.  The first (most lines up to 198) admitted each failing lemma, went on,
  and listed the theorems whose `Print Assumptions` was no longer empty.  Lemmas after an
  admitted one are then proved from it, so they do not fail on their own account.  The second
  (lines 199 to 202 and from 218 on, but for edits of the station table) stops at the first
  failing lemma and finds the theorems by the references in the `.glob` files.  Lines 203 to 217
  and the edits of the station table were run on the few files concerned.
* So where `theorems_failed` has no theorem of the `claim`, the line shows that the wrong program
  does not pass the build.  It does not show that the theorems of that claim would have
  caught it.  Names ending in `_case` are Examples, not theorems.
  For 16 such lines (those with a `note` on a second run) the claim was run again by itself,
  admitting only lemmas it does not rest on; a lemma under the claim failed each time.
  That need not mean a false statement either (see the note of `at_end`).  A seventeenth line,
  of `handle_time_period`, was labelled with the wrong claim, whose theorems did not catch it.
* Edits that changed nothing in the build have an empty list; the theorems then strengthened or
  added are in `theorems_tightened` (line 180 is an equivalent program).

## Properties: what is modelled and how it is proved

The English statements are in `properties.jsonl`.  "refuted" means the statement is
false of the code; the theorem `..._refuted` exhibits a witness and a companion
theorem proves the strongest true version found.

| Id | Approach |
|---|---|
| C01 | `Report.__init__` normalisation over strings; induction on layouts. |
| C02 | refuted in general (text with `=` between spaces); proved for text without `=`. |
| C03 | generic `parse_section` over any handlers; independent relational specification, induction on groups. |
| C04 | `GroupList` as a state machine; induction over operation histories. |
| C05 | the iterator cursor is state; refuted after an abandoned loop, proved for complete loops. |
| C06 | case analysis on the index, all integers. |
| C07 | specification as a quantified formula over clouds; proved equivalent to the loop. |
| C08 | refuted by a two layer witness; proved when the first call returned True. |
| C09 | refuted (`BKN///`); proved exactly characterised. |
| C10 | decision table specification over exact float comparisons. |
| C11 | relational proof over pairs. |
| C12 | refuted (20 km or more); exact condition proved. |
| C13 | for all binary64 values in [0,360]; sector specification. |
| C14 | finite check of 16 points, ValueError for all other strings. |
| C15, C17, C23, C25, C26 | regex run symbolically on the shape of the group (reflection theorem), so the result holds for all digits. |
| C16, C18, C20, C21 | finite domain of coded values evaluated with exact binary64 arithmetic against rational inequalities. |
| C19, C24 | refuted with witnesses; true version proved. |
| C22 | refuted. |
| C27, C28, C29 | finite grammars. |
| C30 | calendar specification independent of `strptime`. |
| C31 | METAR: proved for all codes; TAF: refuted. |
| C32 | all report times; refuted for `2400` at 23:xx; proved otherwise. |
| C33 | refuted for periods ending two days later; proved for at most one day. |
| C34 | termination by calendar argument; minimality. |
| C35 | list refinement. |
| C36, C37 | string theory of `sub`/`split`. |
| C38 | the header over any rest of the report; refuted when the header holds a change word. |
| C39 | refuted with a witness; the orders that are read proved. |
| C40 | relational. |
| C41 | refuted at end of section; proved inside. |
| C42 | string theory. |
| C43, C44 | invariants over parsing, case analysis over all handlers. |
| C45 | refuted (RangeError); true bound proved. |
| C46 | refuted (RangeError, AttributeError); every exception given its cause in the text. |
| C47, C48 | composition of the symbolic regex results: every group is taken by its handler and no other. |
| C49 | finite table. |
| C50 | induction on lists. |
| C51 | refuted. |
| C52 | evaluation of each class on no match. |
| C53 | refuted. |
| C54, C55 | as C15 and C33: wind variation, TAF temperatures (C55 refuted for days two days after the issue). |
| C56 | symbolic regex results for trends of any shape; times from a two hour window; refuted for a few texts. |
| C57 | error bounds of binary64 arithmetic; every field of the reports reduced to them. |
| C58 | invariant over all accepted texts with the captures of each pattern; finite captures evaluated. |
| C59 | a JSON writer and an independent reader; the reader inverts the writer. |
| C60 | the trace of the dispatcher: fields as folds over the trace, ordered slots. |
| C61 | invariant that knows which handlers are still to come; refuted for changes and untranslated indicators. |
| C62 | `format_fixed` against exact rationals; a general lemma on `\s{2,}` and strip over phrases; the range invariant of C58; refuted for zeros. |
| C63 | `strptime` gives real moments by its pattern's paths; additions and replacements preserve them; ordered slots for the TAF body. |
| C64 | dictionaries are laid out as rows (path, value); updates with new keys append, so each group is a permutation of its table; lists by their labels; cursors of trend lists stay at the beginning. |
| C65 | Queries.v gives for each question the answer and the report afterwards; a relation that ignores the cloud cursors (and, in changes, the text buffer) is kept by every question, and with all cursors at 0 it is equality. |
| C66 | Parsing is a fold over the groups of each section; the folds over body and trends read only their own section, so equal sections give equal parts. Text level: any layout of the same groups has the same raw code (C08), and a group that opens a section leaves the groups before it as the body section (C36, C37). |
