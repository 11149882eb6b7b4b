# Formal model of hun_law in Rocq (Coq 8.16.1)

The repository is read as text; nothing of it is executed.  The model lives in
`rocq/theories/` and is written as total, computable Gallina functions that follow the
Python functions branch by branch.  Every definition cites the file and lines it models.

## 1. Conventions of the model

* **Strings** are `pystr := list N`, a list of Unicode code points.  Literals are written
  as UTF-8 Coq strings and decoded by the notation `u8 "…"`.
* **Character classes** (`str.isdigit`, `int()` digit values, `str.lower`, `str.upper`,
  `str.isspace`, `unicodedata.category` Co/Cf) are tables generated from CPython 3.11's
  `unicodedata` (Unicode 14), in `Unicode.v`.
* **Exceptions** are values: `res A := Ok a | Err e`, with one constructor per Python
  exception kind the code can raise or catch.  A generator is the list of values it
  yields together with the exception that ends it, if any (`gen`).
* **Integers** are `Z` (unbounded, like Python's).  Python 3.11's limit of 4300 digits in
  `int(str)` is not modelled.
* **Floats** (line positions) are IEEE binary64 as in `Coq.Floats.SpecFloat`
  (`spec_float`, precision 53, emax 1024): pure Gallina, no primitive floats, no axioms.
* **Regular expressions** are hand-written matchers; each cites the pattern it implements.
  Those of the structure parser are proved to accept exactly the header forms stated in
  `StructSpec.v` (`StructPatterns.v`).
* **Mutable state** is passed explicitly.  Loops are structural recursion or recursion on
  explicit fuel with an explicit `OutOfFuel` error that the theorems exclude.
* **External code** is an explicit function argument ("oracle") of the model function that
  calls it, and theorems quantify over it: the analyser of sentences where any would do,
  pdfminer (its calls of the adapter are the input), the regular expression by which
  textwrap splits a text, gzip, repr and float of numbers (and json in general, before C80), the network, the scheduling of worker processes,
  the text editor.

## 2. Layout

`PyBase.v`, `PyBaseFacts.v`, `Unicode.v` hold the Python runtime fragment, `*Model.v` the
modelled code, `*Spec.v` the small independent specifications, `*Proofs*.v` the lemmas, and
`P_*.v` only the property theorems, each closed by `exact` with `Print Assumptions` beneath
and a concrete case (`…_ex`) beside it.  `FidelityStruct.v` and
`FidelityGrammar.v` evaluate the model on the repository's own test cases (tests, not proofs).

| topic | model files | repository files |
|-------|-------------|------------------|
| numbers, letters, months | NumModel | hun_law/utils.py |
| identifiers, small list functions | IdModel | hun_law/utils.py, Article.is_next_identifier |
| lines, quote levels | LineModel | hun_law/utils.py |
| dates | DateModel | hun_law/utils.py |
| fixups | FixupModel | hun_law/fixups/common.py |
| references | RefModel | hun_law/structure.py |
| act tree | TreeModel | hun_law/structure.py |
| structure parser | StructModel | hun_law/parsers/structure_parser.py |
| semantic parsers | SemModel | hun_law/parsers/semantic_parser.py |
| grammar results | GramModel | hun_law/parsers/grammatical_analyzer.py |
| grammar | PegModel | hun_law/grammar/grammar.ebnf, as tatsu 4.3.0 interprets it |
| dict2object | D2oModel; class table in D2oHun | hun_law/dict2object.py, all serialised classes |
| extraction engine | ExtModel | hun_law/extractors/all.py |
| PDF layout | PdfModel | hun_law/extractors/pdf.py |
| gazette | GazModel | hun_law/extractors/magyar_kozlony.py |
| cache, downloads | CacheModel | hun_law/cache.py, extractors/kozlonyok_hu_downloader.py, file.py, pdf.py |
| HTML | HtmlModel | hun_law/output/html.py |
| plain text | TxtModel | hun_law/output/txt.py, utils.indented_line_wrapped_print |
| pipeline | PipeModel | hun_law/extractors/act.py and the registered extractors |
| command line | CliModel | hun_law/cli.py, hun_law/output/json.py |
| run with the cache | RunModel | hun_law/cli.py, extractors/all.py |
| workers sharing the cache | WorkModel | hun_law/cache.py, extractors/all.py, kozlonyok_hu_downloader.py, pdf.py |
| JSON texts | JsonTextModel | json.dump and json.load, as output/json.py and cache.py call them |
| fixup editor | EditModel | fixup_editor.py, hun_law/fixups/text_fixups.py |

## 3. Plan per property

| id | modelled | proof method |
|----|----------|--------------|
| C01, C02 | roman numeral functions | induction on value; greedy parse consumes exactly one emitted symbol |
| C03 | ordinal tables, `str.lower` | table computed by `vm_compute`, finite sweep lifted by `forallb_forall`; all strings by case on membership |
| C04–C08 | identifier functions | alternating str/int decomposition, lexicographic order lemmas, induction |
| C09, C10 | quote levels, joins, flatten, split | induction over lists |
| C11, C12 | IndentedLine | induction over parts; prefix sums of `dx` in binary64 |
| C13, C14 | Date | proleptic Gregorian ordinals; 400-year periodicity by finite sweep |
| C15–C17, C52 | fixups | induction over lines; exact positions of the one changed line |
| C18–C24 | Reference | case analysis on the component lists; order lemmas from C04 |
| C25–C27 | act tree | nested induction over trees |
| C28 | structural headings | regex matchers + C01–C03 |
| C29–C32, C34, C35, C53 | structure parser | invariants of header search; induction over the class hierarchy (paragraph, point, subpoint) |
| C33 | structure parser | independent layout relation between trees and lines (LayoutSpec.v); induction over the tree, each header search shown to find exactly the laid out items |
| C36–C39, C54, C55 | semantic parsers | analyser as oracle; nested induction with the abbreviation state |
| C40, C41, C56–C58 | grammar converters | collector invariants over call histories; case analysis over parse trees |
| C42 | dict2object | universe of types and values; induction on values; instantiated with the hun_law class table |
| C43 | extraction engine | invariance over arbitrary completion orders |
| C44, C59 | PDF layout | sorting and dictionary lemmas on binary64 keys |
| C45, C46 | gazette extraction | state machine invariants |
| C47, C51 | cache, downloads | file system as a map, kill at any prefix of a write; injectivity of decimal formatting |
| C48, C49 | HTML | structural induction over the element tree; printer read back by an independent reader of text |
| C50 | plain text | induction; textwrap's wrapping modelled, its split an oracle; TxtSpec2.v: lines filled with pieces one after the other; TrimSpec.v: words of any length with white space between them |
| C60 | pipeline | composition of C43, C45, C46 and the parsers |
| C61 | command line | induction over outputs with an explicit file system |
| C62 | fixup editor | invariant of the replacement loop; composition with C16, C17 |
| C63 | grammar | each rule shown to consume what it returns; invariants of spans carried through the collector |
| C64 | grammar | a rule that reads any visible text; per rule, what makes the conversion of its result fail |
| C65 | grammar, semantic parsers | invariant of the collector: parts come in order; the parts of a range leave a dash in the text; C36 and C64 |
| C66 | grammar, HTML | structural induction for totality of the output; C37 and C65 give its hypothesis on references |
| C67 | grammar | texts described by an independent relation (PegSpec2.v); every rule shown to read what is written for it, every rule tried before it to fail; induction over the text |
| C68 | grammar | as C67 and C84, with PegSpec3.v; the title is read word by word up to the act; the four ways of insertion are told apart by the level of what follows "a következő"; JointProofs.v, JointProofs2.v: sentences that replace and insert at once are passed by the rules for one of the two, and what they amend is decided by the order of references of RefSpec.v (C21-C23) |
| C69 | grammar | as C67, C68, C84; lists read by induction with every reference completed from the one before it; a quote ends at its quotation mark whatever is in it; rules tried before are excluded by the last character or the first word |
| C70 | grammar | as C67 and C84, with PegSpec4.v; the rules for amendments are excluded by the missing quotation mark and the last character; a date is no list of articles because of what follows its first number; C57 for the values |
| C71 | grammar, semantic parser | PegSpec5.v; each rule of the grammar that gives something more needs one of the six words (as C65: every rule returns pieces of the text it read); with C38, C68-C70 and C84 for what is stored |
| C72 | structure parser | BodySpec.v: as C33 for whole acts; the loop over the lines is shown to pass calm lines and to stop at each heading; printed acts are shown to be layouts |
| C73 | structure and semantic parser, grammar, gazette, lines | FitSpec.v; a property of everything inside an element is kept by every constructor call of the parsers; a running sum of finite numbers is never NaN; dates come from the checked constructor only; C26, C42, C49 for what follows |
| C74 | all steps from lines to semantic data | LawSpec.v; C72 for the layout, C33 and C72 for the blocks (the loop over blocks passes lines that do not have the next number), C68-C71 and C84 for the sentences; what is stored is determined because no two references of a text end at the same place (C65) |
| C75 | dict2object | D2oReadSpec.v: which data are read at an annotation, and as what; induction on the data, and on the annotation for the characters of strings; equivalence with `to_object` |
| C76 | whole program | IssueSpec.v: characters of pages, sections, laws and acts of an issue, one inside the other; rows of a page are unique (C44), the extractors one after the other (C60), laws (C74), JSON (C73) and files (C61); the net and pdfminer are parameters, with no cache (C51) |
| C77 | text_fixups, replacement_fixups | FixupData1.v, FixupData2.v (the table, transcribed), FixTableSpec.v: what an entry does to texts; how a line is cut depends on the texts of its parts only, so the parts of every line that an entry makes can be computed; checked over the table by computation |
| C78 | dict2object, output/json | JsonSpec.v: the keys of each kind of object, their order and what is left out, as functions of the act; one lemma for each class, then by recursion over the act; the files by C76 |
| C79 | generate_act_to_mk_issue | ScriptModel.v, ScriptSpec.v: documents as trees, the pattern as an equation between texts, a reader of comma separated values as the csv module's; html.parser, windows-1250 and the server are parameters |
| C80 | output/json, cache, json | JsonTextModel.v: the encoder and the scanner of the json module; JsonTextSpec.v: RFC 8259 as an inductive relation between values and texts; both are related to it, reading by induction over texts, writing over values; what is read does not change when text is appended, so cut texts fail; float_law is asked of repr and float |
| C81 | output/txt, output/html, structure | ShowSpec.v: what is printed of an act and how far to the right, and what fits there, as relations; by recursion over the act the text exists exactly if all fits; what the parsers guarantee (FitProofs.v, with a predicate of structural elements) takes away all but three of the conditions; the files by C76 |
| C82 | cli, cache, extractors/all, kozlonyok_hu_downloader, pdf | RunModel.v: the run in one process with the cache, the net and the output on one disk, writing what is yielded before the next object is taken; RunSpec.v: what the cache may have of an issue (agrees), where there is room for it and for the output; simulation by induction over the steps of the work, with the run of CliModel.v on one side, in which downloads and files are given |
| C83 | extractors/all, cache, kozlonyok_hu_downloader, pdf | WorkModel.v: what a worker does with the files of its issue, in steps (one byte written is one step); WorkSpec.v: systems of workers and the moves they make in any order, with those of others elsewhere; an invariant on where each worker is and what its files have, kept by its own steps and untouched by those of others; well-foundedness of the steps; with no one in between a worker does what the functions of CacheModel.v do (C83_alone) |
| C84 | grammar, grammatical analyzer | CiteSpec.v: lists of identifiers and what they say; CiteProofs.v, CiteProofs2.v: a list is read by the rule of its kind and passed by those of the other kinds, because of the first character, of what stands after the first identifier, or of the unit; CiteProofs3.v: the collector, the order by place and the levels; CiteProofs4.v: sentences, as in C67; CiteProofs5.v: there is exactly one reading of a list |
| C85 | grammar, grammatical analyzer | DivSpec.v: divisions and the sentences about them; DivProofs.v: no reference to an article or a part of one is read in a text without their words, numerals with letters and ordinals are read to their ends and not taken for each other; DivProofs2.v: the division is read by the rule of its kind, the rules for articles and subtitles fail after it, and the conversion of numerals is that of C01-C03 |
| C86 | grammar, grammatical analyzer | SubSpec.v: places of subtitles and the sentences about them; SubProofs.v: an article that is a place is not read as a reference that is amended, because a word for a place comes after it; the place is read by the rule of its kind, and the rules tried before fail; SubProofs2.v: articles named before a subtitle are read as such, not as a place or a numbered subtitle; SubProofs3.v: the rule for repeals of references stops at the word for the place; SubProofs4.v: titles in quotes |
| C87 | grammar, grammatical analyzer | PlaceSpec.v: places at which something is inserted or replaced; PlaceProofs.v: the place is read by the optional rule for positions, a division with a number is not read as the chapter of an article because no word for a place beside an article follows, and the words after it cannot be read as a subtitle or as an amended reference |

Where the faithful model violates the property as a user would expect it, the theorem is
named `…_refuted` and the finding is listed in section 5.

## 4. Trusted base

1. Coq's kernel (8.16.1), including `vm_compute`.
2. The reading of the Python source, i.e. that each model definition does what the cited
   lines do, and the conventions of section 1.
3. The tables of `Unicode.v` and `UnicodeAlnum.v`, and the reading of tatsu in `PegModel.v`.
4. The laws asked of oracles, always as hypotheses of the theorems:
   `codec` (CacheSpec.v: reading a whole written file gives the data back, reading a proper
   part of it fails), `splits` (TxtSpec.v: textwrap's split loses no character),
   `sane_spans` (a reference found by the analyser has start < end; C63 proves it of the
   modelled grammar), `float_law` (JsonTextSpec.v: repr writes a finite number with a point or an
   exponent, and float reads it back).

### Simplifications

* Objects have no identity in the model.  Where the code tests `is`, the model tests what
  the functions return (change flags); mutation of shared lists is not possible in the
  modelled functions because the classes are frozen.
* Dictionaries are association lists in insertion order; keys are compared as in Python
  for the types that occur.  Float keys: the theorems about page layout exclude nan and
  -0.0.
* dict2object: types are a first-order universe (basic types, lists, tuples, unions,
  attr classes, enums); the converter cache is replaced by one table computed for all
  classes; annotations are already resolved.  The order of `__subclasses__()` is the order
  of definition.  Iterating strings and dicts in place of lists is modelled for reading, not
  for writing; the checks in `__init__` of the hun_law classes are modelled for fields of the
  annotated kinds (`Date(True, ...)` is refused).
* Extractors are pure functions from objects to finite generators; pickling between
  processes gives equal objects.
* File system: a map from path strings to contents and a set of directories; equal files
  under different spellings of a path are different files; `makedirs` is atomic; a kill
  leaves any prefix of what a `write` was to write.
* ElementTree: elements with text, attributes, children and tail, and the HTML serialiser
  with its escapes.
* Command line: argparse's parsing of the argument list and the encoding of text are not
  modelled; what a failing output function has written before it fails is an oracle;
  the cache's files are not among the files of the command line model.
* JSON: the limit of 4300 digits when integers are read, depth limits, and the refusal of a
  byte order mark are not modelled; every error of reading is a ValueError.
* Fixup editor: what is done in the editor is any function of the shown text; the order
  of keys in the written JSON and the re-import of modules are not modelled.
* Grammar: rules are functions from the rest of a text to a result and another rest; white
  space before tokens and rules, word boundaries after tokens that are names, choices and
  closures are as in tatsu 4.3.0 with the options of the generated parser; `quote` recurses
  on the length of the text, memoisation is left out since the rules have no side effects.  Trees hold only
  what `grammatical_analyzer.py` reads of them.  The 171 cases of tests/cheap/grammar come
  out as they should.
* Error messages are not modelled, only the kind of exception.
* C82: one process; accesses of several to the cache are interleaved in C83.
  The value that from_cache gives for a file of lines is turned into lines by pages_of (RunModel.v).
  −0.0 as a margin is left out (clean_pages), as it is read back as 0.0 (see C47).

### Not modelled

* tatsu's generation of a parser from grammar.ebnf (the grammar's meaning is modelled).
* pdfminer; `extract_textboxes` is modelled as the calls that pdfminer makes.
* `generate_output.py` (a call of cli.py), the prompt of `generate_act_to_mk_issue.py`,
  `setup.py` and the tests.
* `GrammaticalAnalyzer._indented_print` and debug output, messages on stderr,
  `Date.today`, `__do_post_processing` of structure.py, the decorators `Extractor` and
  `txt_writer` (their result, the tables of registered functions, is modelled).

## 5. Findings

Behaviour of the code that contradicts what its user would expect; each is a theorem named
`…_refuted` unless marked "by reading".

Numbers and identifiers
* C02: `1V`, identifiers with a line break and `0` do not survive roman notation.
* C05: `1/b` is a successor of `1a` although it is ordered before it.

Lines and fixups
* C11: slicing from inside a last part of several characters loses that part.
* C12: joining lines changes positions by rounding.
* C16: a second replacement in the same line loses text; text added at the end of a line
  gets position 0.
* C77: "„3:240/A. § [Az átváltozó kötvény]", which the program writes into act CXXXV of 2013,
  is one part behind the quote, so cutting off the number loses the title and the article
  fails to parse.  (The same edit for 3:297 is made in two steps and works.)

References
* C19: the order is not a weak order when identifiers are written with leading zeros.
* C20, C23: `contains` and `is_parent_of` skip components that are missing in the one
  reference, so that article 2 "contains" article 9 of another act.
* C22: an identifier `1-2` and a range from 1 to 2 have the same id string.

Act tree
* C25: elements with neither text nor children can be made.
* C26: the rest of a reference behind a range, or a subpoint behind no point, is ignored.
* C27: filters with a gap select other elements too.

Structure parser
* C29: article numbers are neither checked for order nor for repetition.
* C31: the preamble is cut at the first heading even inside a quote.
* C32: a quoted block of one line is closed without looking at the quote level.
* C34: subpoints `ny)` and `sz)` are not prefixed; a prefixed point `nya)` is a ValueError.
* C35: a title of three lines repeats its second line and loses its third.
* C55: the first identifier of a block amendment is not checked.
* By reading: titles of special Parts are dropped; lines before the first heading in a
  structural amendment are dropped.

Semantic parsers
* C36: IndexError for a text of which nothing is left after stripping its end.
* C37: a reference may reach over the full stop that is added for the analysis.
* C38: the lead-in of a list is read again with each item, so abbreviations introduced in
  it come back after others have replaced them.
* C39: errors in block amendments are of a class that is not caught; closing text is lost.
* C54: abbreviations of elements that were edited away stay in effect.

Grammar results
* C40: spans overlap when a third item stands between two that are merged; a merged range
  contains inserted identifiers (1/A) that were not listed.
* C41: an insertion that starts inside the amended range and ends beyond it is not covered;
  an article inserted after an amended paragraph makes the whole analysis fail.
* C56: a list of articles in an amendment with a subtitle is an AttributeError.
* C68: an amendment of a list that is not one range, such as (1) and (3), is dropped together
  with its references.
* C68: a sentence that replaces a paragraph and inserts an article after it ("3. § (1) bekezdése
  helyébe a következő rendelkezés lép, és a következő 3/A. §-sal egészül ki:") has no reference
  for both, so an AssertionError leaves the grammatical analyzer (C68_impossible, checked on this
  sentence); if what is replaced is a list that is not one range, the sentence is taken for an
  insertion only, and if what is inserted is one, for a replacement only.
* C85: the act named in an amendment of a division is not among the references of the sentence,
  unlike that of a repeal or of an amendment of articles.
* C86: a chapter named before the article at which a subtitle is inserted is lost, and so is every
  place named before a subtitle that is inserted together with articles; of these articles only the
  first is stored.  A subtitle that is named by its number or its title and replaced by a subtitle
  ("5. alcíme helyébe a következő alcím lép:") is not recognised as amended (C86_missed_ex, checked on
  two sentences).
* C87: the chapter, article or subtitle at which something is inserted or replaced is lost (C87_lost,
  C87_lost_at).
* C57: the day of the month is not checked.
* By reading: the grammar has no ordinals such as 21–29.

dict2object
* C42: 0.0 where the default is 0 is read back as the integer 0; NaN; unions whose members
  have the same kind of data are accepted in one order and read back as the wrong class;
  an article that holds points is read back with paragraphs.
* C75: numbers, strings and so on are not checked when data are read, so the identifier of an
  act may be a number; a list that is too long for a tuple is cut; a string or an object in
  place of a list is read by its characters or keys; a wrong `__type__` is ignored where only
  one class is possible.

Extraction
* C43: one worker takes the objects from last to first, several from first to last.
* C44: boxes at the same x within 0.2 of height are lost; an empty page is a ValueError for
  the whole file; the right margin is computed from `x - width`.
* C59: a character starting with a format or private character is dropped whole.
* C45: the first page is processed twice; laws that begin on it are found twice.
* C46: a law behind two blank lines is missed; a law that is not signed swallows the next
  one; three blank lines or an empty subject line are an IndexError.
* C47: a killed write leaves a file that is taken for a cached one and cannot be read.
* C51: the address of an issue has only two digits of the year; a truncated download is
  kept for ever.
* C60: one law that cannot be parsed keeps all others from being extracted.

Output
* C48: indentation adds white space around links; an element that has neither text nor
  children is a TypeError.
* C49: the only paragraph of an article has the same anchor as the article; links to
  ranges point nowhere.
* C50: a full line keeps the space before a word longer than a line, so that it ends with white space
  (C50_trimmed_ex; textwrap's doing).  The label of an empty article is lost; the label is repeated on each line of a
  leading amendment; an element that only has an intro is an AssertionError.
* C61: `--single-act` is ignored for two of the steps; files of acts with the same
  identifier overwrite each other, and which one stays depends on the number of workers;
  HTML of a raw law fails after its file was truncated; an identifier with a slash stops
  the run.
* C62: editing the last of three equal lines changes the second; an emptied line is
  removed; the last line is never found by its context; replacements that cannot be applied
  are saved, after which the act can no longer be extracted.
* C64: sentences on which the analysis fails, and with it the semantic parsing of the whole
  act: a point letter among subpoints ("ab) és a) alpontja"), a day that does not exist
  ("2013. február 30-án lép hatályba"), an amended paragraph with an inserted article or with
  an inserted earlier paragraph, a new subtitle with articles given as "5. és 8. §-sal".
* C65, C66: in "A 3. § (1), (5)–(6) és (2) bekezdése" paragraphs 1 and 2 are put together
  to one reference that reaches over the range between them, so two references overlap, and
  the HTML output of the act is an AssertionError.
* C71: "A Btk. a következő 5. alcímmel egészül ki:" has none of the six words, so the block
  after it becomes a block amendment but no semantic data is stored about it.
* C72: a chapter whose number does not follow the last one (say because the one before it is
  repealed) is not recognised, and its lines become the end of the article before it.  In a
  structural block amendment, lines before the first heading are dropped, among them a
  subtitle that is not bold; and a bold chapter title becomes an unnumbered subtitle.
* C73: a paragraph or point without any text ("(2) ") is accepted by the structure parser, and
  then stops semantic parsing of the whole act with an IndexError.
* C66: HTML output also fails for an empty text, for a quoted block of empty lines, for
  infinite indents, and for structural elements whose number cannot be written.
* C79: titles with a comma are put in quotes, but the quotes in them are not doubled, so the
  line of act LIX of 2015 is not read as its title (in the file of the repository it has been
  corrected); the end of an element inside another one of the same name ends both.
* C80: the cache's texts are in ASCII, so the two halves of a surrogate pair that stand next to
  each other in a string would come back as one character; the files of acts do not have
  this fault.
* C83: if one issue is asked for twice, with more workers than one, the second worker can read
  the file that the first one has begun to write: the program then ends with an error of
  the PDF library, or goes on with an incomplete issue, whose lines stay in the cache.
* C81: a law that quotes only an empty line („”), or amends with an empty paragraph („(2) ”), is
  read in all steps, but stops the text output and the HTML output.

## 6. Print Assumptions

Every theorem of `MANIFEST.json` prints "Closed under the global context".  No axiom is
used, neither of our own nor of the standard library.  (Loading the standard library's
`ssr` files declares `Coq.ssr.ssrunder.Under_rel.*`; no theorem depends on them.)

## 7. How to read seeded/LOG.jsonl

Each line is one edit of a definition, made in a scratch copy.  The copy is built with `make -k` up to
the property files that the edit is about, not always up to all of them.

* `failed_at` is observed: the proofs at which Coq stopped.  Coq stops at the first error of a file, so
  later proofs of the same file, and files that need it, are not tried.
* `theorems_failed` is computed, not observed one by one: the theorems whose proofs use one of these
  proofs, directly or through others, found by the names in the source.  They cannot be built with the
  edit.  Other theorems may fail too.  For most lines the names were looked up in the sources at the
  time of logging, which can be some commits newer than the copy that was built.
* The names were first followed through comments and local variables too, which listed theorems that have
  nothing to do with the edit (up to 308 of them).  36 lines were corrected by removing those that a
  stricter search does not reach: no comments, and only definitions that come earlier and are imported.
  That search can still name too many, as it goes by words.  The edit of `exactly_one` was left with none.
* The edits of the wrapping that were tried for C50_trimmed all stopped at earlier proofs on wrapping, so
  the proof of C50_trimmed itself was not tried with them.
* A failed proof shows that the proof does not go through, which is weaker than that the statement is
  false with the edit.
* An empty `theorems_failed` is one of these: an example noticed the edit first, and what follows that
  example in its file was not tried; nothing noticed it, and `theorems_tightened` or a later line names
  what was added; or the edit changes nothing that can be observed.
