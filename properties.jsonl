{"id": "C01", "title": "Roman numerals round trip", "statement": "int_to_text_roman terminates for every integer, and for every i >= 1 text_to_int_roman(int_to_text_roman(i)) == i; for i <= 0 the text is empty and text_to_int_roman rejects it with ValueError.", "quantifier": "every integer i (unbounded)", "why_tests_cant": "The test loops over 1..1999; the claim is for all integers, and there is no largest numeral (4000 is MMMM).", "anchors": ["hun_law/utils.py:int_to_text_roman", "hun_law/utils.py:text_to_int_roman"]}
{"id": "C02", "title": "Roman/arabic identifiers with postfix round trip", "statement": "roman_to_arabic_with_postfix(arabic_to_roman_with_postfix(str(n)+postfix)) == str(n)+postfix for every n >= 1 and every postfix that does not start with a decimal digit or a letter of I,V,X,L,C,D,M and contains no newline; without those conditions the round trip is false.", "quantifier": "every n >= 1, every postfix string", "why_tests_cant": "Infinitely many numbers and postfixes; the tests try three postfixes on 1..1999.", "anchors": ["hun_law/utils.py:roman_to_arabic_with_postfix", "hun_law/utils.py:arabic_to_roman_with_postfix"]}
{"id": "C03", "title": "Hungarian ordinals are an exact correspondence with 1..100", "statement": "int_to_text_hun is defined exactly on 1..100, text_to_int_hun inverts it there, any text it accepts is (up to letter case) the ordinal of the number returned, two different numbers never share a text, and everything else is rejected with ValueError.", "quantifier": "every integer and every string", "why_tests_cant": "Rejecting every other string is a claim about infinitely many strings; the test only tries the hundred accepted ones.", "anchors": ["hun_law/utils.py:int_to_text_hun", "hun_law/utils.py:text_to_int_hun", "hun_law/utils.py:HUNGARIAN_UPPERCASE_CHARS"]}
{"id": "C04", "title": "Identifier ordering is a strict weak order and never mixes types", "statement": "identifier_less never raises TypeError on any two strings; on identifiers whose digit characters are decimal digits it never raises at all, is irreflexive, asymmetric, transitive, and two identifiers are incomparable exactly when they have the same decomposition into text and numbers.", "quantifier": "every pair and triple of identifier strings", "why_tests_cant": "Order laws quantify over all triples of strings.", "anchors": ["hun_law/utils.py:split_identifier_to_parts", "hun_law/utils.py:identifier_less"]}
{"id": "C05", "title": "The successor relation on numeric identifiers moves strictly forward", "statement": "On numeric identifiers (a number, optionally followed by one letter, with or without a slash) is_next_numeric_identifier(a, b) holds exactly when b is the next number, or a's number with first letter a/A, or the same number with the next letter. When both use one slash style, a then comes before b in identifier order; in a chain of successive identifiers no identifier repeats, whatever the styles. With mixed slash styles the relation can go backwards in identifier order ('1a' -> '1/b').", "quantifier": "every pair of identifiers; every finite chain", "why_tests_cant": "Chains of arbitrary length over infinitely many identifiers.", "anchors": ["hun_law/utils.py:is_next_numeric_identifier", "hun_law/utils.py:is_next_letter_hun"]}
{"id": "C06", "title": "Article numbering successor moves strictly forward", "statement": "For article numbers of the forms N, N/L, B:N and B:N/L, Article.is_next_identifier(a, b) holds exactly when b is the next number, the first or next letter of the same number, or article 1 of the next book; then a is before b in identifier order, and a plain number is never related to a book-prefixed one; chains of successive article numbers never repeat.", "quantifier": "every pair of article identifiers", "why_tests_cant": "Infinitely many article numbers.", "anchors": ["hun_law/structure.py:Article.is_next_identifier"]}
{"id": "C07", "title": "Letter succession follows the Hungarian list alphabet", "statement": "is_next_letter_hun(a, b) holds among the letters a..z with the optional digraphs gy, ny, sz, ty (and their upper case forms) exactly when b follows a and only digraphs stand between them; outside that alphabet it holds only for single characters with consecutive code points; it never raises, and b always sorts after a.", "quantifier": "every pair of strings", "why_tests_cant": "All pairs of strings, including strings outside the alphabet.", "anchors": ["hun_law/utils.py:is_next_letter_hun"]}
{"id": "C08", "title": "cut_by_identifier returns exactly the requested interval", "statement": "cut_by_identifier(items, lo, hi) returns exactly the items that have an identifier lying in the closed interval [lo, hi] of identifier order, in the original order; items without identifier are dropped; from items in identifier order the result is one contiguous piece.", "quantifier": "every sequence of items, every pair of bounds", "why_tests_cant": "Arbitrary sequences and bounds.", "anchors": ["hun_law/utils.py:cut_by_identifier"]}
{"id": "C09", "title": "Quote level tracking", "statement": "iterate_with_quote_level yields each line once, in order, with the number of quotes opened minus closed before that line; the run ends in ValueError exactly when some prefix closes more quotes than it opened or the text ends with an open quote (when that check is on).", "quantifier": "every finite sequence of lines", "why_tests_cant": "All sequences of lines.", "anchors": ["hun_law/utils.py:iterate_with_quote_level", "hun_law/utils.py:quote_level_diff"]}
{"id": "C10", "title": "Line joining, flattening and splitting lose nothing", "statement": "join_line_strs keeps every non-space character of every line in order; flatten lists the leaves of a nested list left to right; split_list's pieces, concatenated, give back the input, and within a piece the needle can only be the first element.", "quantifier": "every list of lines, nested list, and list with separators", "why_tests_cant": "Arbitrary inputs.", "anchors": ["hun_law/utils.py:join_line_strs", "hun_law/utils.py:flatten", "hun_law/utils.py:split_list"]}
{"id": "C11", "title": "Slicing a line is slicing its text and keeps positions", "statement": "If IndentedLine.slice(start, end) returns, then apart from one case the result's content is content[start:end] and every kept part has the same absolute x position; slice raises ValueError when a bound falls inside a part. The exception: a start strictly inside the last part returns an empty line, silently dropping text.", "quantifier": "every line, every start and end (also negative)", "why_tests_cant": "All lines and all slice bounds, including multi-character parts.", "anchors": ["hun_law/utils.py:IndentedLine.slice"]}
{"id": "C12", "title": "Concatenating lines keeps text and positions", "statement": "IndentedLine.from_multiple(l1..ln) has the concatenated content; each part keeps its distance from its predecessor within a line, and each line starts at its original absolute x position up to floating point rounding. Boldness is not kept: the first part of every line becomes non-bold.", "quantifier": "every sequence of lines", "why_tests_cant": "All sequences of lines.", "anchors": ["hun_law/utils.py:IndentedLine.from_multiple"]}
{"id": "C13", "title": "Dates: construction, day arithmetic and parsing", "statement": "Date(y, m, d) succeeds exactly for valid Gregorian dates of years 1..9999; adding n days moves forward exactly n days in calendar order, add_days(a) then add_days(b) equals add_days(a+b) when no step overflows, and adding n then -n is the identity.", "quantifier": "every date and every integer number of days", "why_tests_cant": "Infinitely many offsets; calendar corner cases (centuries, leap years).", "anchors": ["hun_law/utils.py:Date"]}
{"id": "C14", "title": "Dates survive their textual forms", "statement": "Writing a date as 'YYYY. month D.' or 'YYYY.M.D' / 'YYYY/M/D' and parsing it back with from_hungarian_text / from_simple_string gives the same date, with any trailing text in the first case.", "quantifier": "every valid date, every suffix", "why_tests_cant": "3.65 million dates times all suffixes.", "anchors": ["hun_law/utils.py:Date.from_hungarian_text", "hun_law/utils.py:Date.from_simple_string", "hun_law/utils.py:text_to_month_hun"]}
{"id": "C15", "title": "Line fixups hit exactly one line or fail", "statement": "delete_line / add_empty_line_after return normally exactly when exactly one line of the body has the needle as its text; then all other lines are unchanged and in the same order (and the needle line is dropped, or followed by one empty line); otherwise they raise ValueError.", "quantifier": "every list of lines and every needle", "why_tests_cant": "All documents and needles.", "anchors": ["hun_law/fixups/common.py:delete_line", "hun_law/fixups/common.py:add_empty_line_after"]}
{"id": "C16", "title": "Content replacement changes exactly the needle", "statement": "On lines whose parts are single characters, replace_line_content succeeds exactly when one line has the needle text and is preceded by the required lines (later lines judged against the already replaced text), every other line is kept, and the new line reads as the replacement: the characters of the longest common start and end keep their positions (when float subtraction and addition of the positions is exact), the differing middle becomes one part at the position where the old middle stood, and the right margin is kept. An empty replacement drops the line. With longer parts the text is still right unless the line ends with a longer part. Every failure is a ValueError. Refuted in general: a second replacement on a line whose end was already replaced can lose text silently, and text appended to a line is positioned at 0.", "quantifier": "every list of lines, needle, replacement and list of preceding texts", "why_tests_cant": "All documents and replacements.", "anchors": ["hun_law/fixups/common.py:replace_line_content"]}
{"id": "C17", "title": "Fixup registry: isolation, order, and failure", "statement": "do_all_fixups applies exactly the fixups registered for that identifier, in registration order, leaves bodies of unregistered identifiers unchanged, and any failing fixup surfaces as ValueError.", "quantifier": "every registration history and every body", "why_tests_cant": "Arbitrary registries.", "anchors": ["hun_law/fixups/common.py:do_all_fixups", "hun_law/fixups/common.py:add_fixup"]}
{"id": "C18", "title": "Relative references compose", "statement": "Reference.relative_to is associative, the empty reference is a left and right identity, resolving twice against the same base changes nothing, and the components of the result come from the more specific reference from its first non-empty component on and from the base before it.", "quantifier": "every triple of references (also with gaps and ranges)", "why_tests_cant": "All triples of references.", "anchors": ["hun_law/structure.py:Reference.relative_to"]}
{"id": "C19", "title": "References are ordered consistently", "statement": "On references without ranges and with readable identifiers <, <=, >, >= never raise; < compares act, then article, paragraph, point, subpoint at the first level that differs, with a missing component first, and is a strict partial order, so a parent sorts before its children; with canonical identifiers (no leading zeros) it is total. Comparing references that reach a range component raises ValueError.", "quantifier": "every pair and triple of references", "why_tests_cant": "Order laws quantify over all triples.", "anchors": ["hun_law/structure.py:Reference.__lt__", "hun_law/structure.py:Reference.__gt__", "hun_law/structure.py:Reference.__le__", "hun_law/structure.py:Reference.__ge__"]}
{"id": "C20", "title": "contains() means coverage", "statement": "For gap-free references whose only range is their last component, a.contains(b) holds exactly when every position denoted by b lies within a; it is reflexive and transitive there. For references with gaps the equivalence is false.", "quantifier": "every pair and triple of references", "why_tests_cant": "All pairs of references.", "anchors": ["hun_law/structure.py:Reference.contains"]}
{"id": "C21", "title": "Range references and their endpoints", "statement": "first_in_range/last_in_range return non-range references; make_range(first, last) of references that share the parent and level gives a range whose endpoints are first and last; make_range fails with AssertionError on mismatching endpoints; a non-range is its own first and last.", "quantifier": "every reference and every pair", "why_tests_cant": "All references.", "anchors": ["hun_law/structure.py:Reference.first_in_range", "hun_law/structure.py:Reference.last_in_range", "hun_law/structure.py:Reference.make_range", "hun_law/structure.py:Reference.is_range"]}
{"id": "C22", "title": "Reference id strings identify references", "statement": "relative_id_string is injective on act-less references whose identifiers avoid the characters '_', '-' and the substitution words, and from_relative_id_string inverts it.", "quantifier": "every reference", "why_tests_cant": "All identifier strings.", "anchors": ["hun_law/structure.py:Reference.relative_id_string", "hun_law/structure.py:Reference.from_relative_id_string"]}
{"id": "C23", "title": "parent and is_parent_of agree", "statement": "For a gap-free reference a, a.is_parent_of(b) holds exactly when a is b with one or more of its deepest components removed, i.e. a differs from b and repeated parent() calls on b give a; five parent() calls always reach the empty reference; the relation is a strict partial order. For an a with gaps is_parent_of can be wrong.", "quantifier": "every pair of references", "why_tests_cant": "All references.", "anchors": ["hun_law/structure.py:Reference.parent", "hun_law/structure.py:Reference.is_parent_of"]}
{"id": "C24", "title": "Abbreviation resolution", "statement": "resolve_abbreviations changes only the act of a reference, only when the act is a known abbreviation, and is idempotent when no abbreviation resolves to another abbreviation.", "quantifier": "every reference and every abbreviation map", "why_tests_cant": "All maps.", "anchors": ["hun_law/structure.py:Reference.resolve_abbreviations", "hun_law/structure.py:StructuralReference"]}
{"id": "C25", "title": "Sub-article elements are always well formed", "statement": "A sub-article element can be constructed exactly if a text comes without intro, wrap-up and children, and children, if given, are at least one, all of one class (except inside a block amendment) and of a class its own class allows; otherwise the constructor raises IndexError (no child), ValueError (text with other content) or TypeError (kinds). An article can be constructed exactly if it has one unnamed paragraph or only numbered ones. This holds at every depth of every tree that exists. That an element always has text or children is false.", "quantifier": "every combination of constructor arguments", "why_tests_cant": "All argument combinations and all child lists.", "anchors": ["hun_law/structure.py:SubArticleElement", "hun_law/structure.py:Article"]}
{"id": "C26", "title": "Looking up an element by its own reference finds it", "statement": "In a tree with unique sibling identifiers, at_reference(r) for the reference r of an article, paragraph, point or subpoint returns exactly that element; for any reference without ranges it either returns the one element at that place or raises KeyError if there is none; at_reference of a range returns the siblings whose identifiers are in the range, in order. A subpoint without a point, and whatever is given below a paragraph range, is ignored.", "quantifier": "every act and every element in it", "why_tests_cant": "Trees of any shape and size.", "anchors": ["hun_law/structure.py:Act.at_reference", "hun_law/structure.py:Article.at_reference", "hun_law/structure.py:SubArticleElement.at_reference"]}
{"id": "C27", "title": "Mapping over an act visits exactly the selected elements", "statement": "Act.map_saes with a filter (absolute, without gaps, at most its last part a range) applies a modifier that changes an element's own data to exactly those sub-article elements whose place the filter covers, each once, in document order, parents before children by default and children before parents with children_first, never enters quoted block amendments, leaves everything else unchanged; the identity modifier returns an equal act. With a filter that has a gap it also modifies elements outside the filter.", "quantifier": "every act, modifier and filter", "why_tests_cant": "All trees and all modifiers.", "anchors": ["hun_law/structure.py:Act.map_saes", "hun_law/structure.py:Article.map_recursive", "hun_law/structure.py:SubArticleElement.map_recursive"]}
{"id": "C28", "title": "Structural headings round trip", "statement": "A line without newlines is recognised as a heading of Book, Part, Title, Chapter or Subtitle exactly if it has the form the class asks for (ordinal words, roman number with optional /letter, number with dot, special Part names), with the identifier that form spells; and for every element with an identifier in the range of its class, the heading printed by formatted_identifier followed by the title lines is parsed back to the same element.", "quantifier": "every identifier in the range of the class, every title", "why_tests_cant": "Unboundedly many titles and chapter numbers.", "anchors": ["hun_law/parsers/structure_parser.py:StructuralElementParser", "hun_law/structure.py:StructuralElement.formatted_identifier"]}
{"id": "C29", "title": "Children found by the parser are numbered consecutively", "statement": "In every tree made by the sub-article parsers, at every depth, the children are quoted blocks or at least two elements of one class whose identifiers start at the first one of the class and follow one another without gaps; the paragraphs of an article are a single one or numbered from 1 on, and no two have the same identifier; in an act, the number of every structural element that must follow does follow the last one of its class. Article numbers are not checked: repeated and decreasing numbers are accepted.", "quantifier": "every list of input lines", "why_tests_cant": "All documents, including ones that contain misleading headers.", "anchors": ["hun_law/parsers/structure_parser.py:SubArticleElementParser.find_header_lines", "hun_law/parsers/structure_parser.py:ActBodyParser"]}
{"id": "C30", "title": "Parsing sub-article text loses no characters", "statement": "When the sub-article parser succeeds, the text, intro, wrap-up and headers of the resulting tree, read in order, contain exactly the non-space characters of the input lines, in order, provided each line's last part is a single character.", "quantifier": "every list of input lines", "why_tests_cant": "All documents.", "anchors": ["hun_law/parsers/structure_parser.py:SubArticleElementParser.parse"]}
{"id": "C31", "title": "Quoted text never becomes structure", "statement": "Every element inside a parsed sub-article element starts at a line that begins with its header and before which all quotes of the parsed lines are closed; every article and structural element of an act whose quotes are balanced starts at a line before which all quotes are closed. The preamble is cut without regard to quotes.", "quantifier": "every list of input lines", "why_tests_cant": "All documents.", "anchors": ["hun_law/parsers/structure_parser.py:SubArticleElementParser.find_header_lines", "hun_law/parsers/structure_parser.py:ActBodyParser", "hun_law/parsers/structure_parser.py:ArticleParser"]}
{"id": "C32", "title": "Quoted blocks partition the quoted lines", "statement": "When the quoted-block parser succeeds, the lines are, in order, blank lines, quoted blocks and perhaps a text after them; a block over several lines ends at the first line that ends with a closing mark and closes all quotes; a block on one line ends with a closing mark, whether or not its quotes are balanced.", "quantifier": "every list of input lines", "why_tests_cant": "All documents.", "anchors": ["hun_law/parsers/structure_parser.py:QuotedBlockParser"]}
{"id": "C33", "title": "Rendering a sub-article tree and parsing it gives the tree back", "statement": "Parsing lines that lay out a paragraph, point, subpoint or article gives exactly that tree: headers, texts over several lines, nested lists with gapless numbering, quoted blocks, texts after lists, article numbers and titles. In particular every tree of ordinary texts (no quotation marks, not starting like an item), printed with one line for each text and parts further to the right, is read back unchanged.", "quantifier": "every tree, every layout of it that meets the stated conditions, properly indented or not", "why_tests_cant": "Infinitely many trees.", "anchors": ["hun_law/parsers/structure_parser.py:SubArticleElementParser.parse", "hun_law/parsers/structure_parser.py:ParagraphParser", "hun_law/parsers/structure_parser.py:ArticleParser"]}
{"id": "C34", "title": "The sub-article parser fails only with its own error", "statement": "On lines whose parts are single characters, the paragraph parser fails only with SubArticleParsingError and the article parser only with ArticleParsingError; the act parser fails only with ActParsingError on any lines. After the subpoint 'ny)' (or 'sz)') the next letter is not recognised, and a repeated 'n)' makes the parser fail.", "quantifier": "every list of input lines", "why_tests_cant": "Totality over all inputs.", "anchors": ["hun_law/parsers/structure_parser.py:SubArticleElementParser.parse"]}
{"id": "C35", "title": "Article title and body are split without loss", "statement": "A line starts an article with identifier i exactly if it is i, a dot, an optional space, a section sign, a space and text; the title parser returns a bracketed title of one or two lines and the rest of the lines, exactly; for a title of three lines it repeats the second one without its last character and loses the third.", "quantifier": "every article text", "why_tests_cant": "All articles.", "anchors": ["hun_law/parsers/structure_parser.py:ArticleParser"]}
{"id": "C36", "title": "Semantic parsing only adds semantic data", "statement": "add_semantics_to_act changes nothing but the semantic fields of elements, its result is marked as semantically parsed, and running it again (with any analyser) returns the same act. It succeeds if the analyser accepts every text, no two references end at the same place and no text becomes empty when list conjunctions are cut off its end; such an empty text makes it fail with IndexError.", "quantifier": "every act, every analyser behaviour", "why_tests_cant": "All trees and all results of the grammar analyser.", "anchors": ["hun_law/parsers/semantic_parser.py:ActSemanticsParser"]}
{"id": "C37", "title": "Outgoing reference positions lie in their element's text", "statement": "Every outgoing reference stored on an element has 0 <= start < end and end at most one past the text's length, references are sorted by position; the tighter bound end <= length is false.", "quantifier": "every element and every analyser result with in-range spans", "why_tests_cant": "All texts and prefixes.", "anchors": ["hun_law/parsers/semantic_parser.py:ActSemanticsParser.parse_text", "hun_law/parsers/semantic_parser.py:ActSemanticsParser.convert_parsed_references"]}
{"id": "C38", "title": "Abbreviations take effect from where they are introduced", "statement": "Elements are read in document order, each one between the introductions and closing texts of the elements around it. A reference by abbreviation is resolved to the act named by the last introduction among those read so far, its own reading included, and later parts of the act have no effect on earlier ones. It is not the document order that counts: an introduction in the lead-in of a list takes effect again at each point.", "quantifier": "every act and analyser behaviour", "why_tests_cant": "All documents.", "anchors": ["hun_law/parsers/semantic_parser.py:SemanticParseState", "hun_law/parsers/semantic_parser.py:ActSemanticsParser.parse_text"]}
{"id": "C39", "title": "Block amendment conversion is all-or-nothing", "statement": "ActBlockAmendmentParser keeps everything but paragraphs that consist of one quoted block; such a paragraph is kept or has its block replaced by a single block amendment, its introduction being split at the bracketed context. Blocks that cannot be parsed are not left alone: the whole act fails. The text after the block is lost when there is no context.", "quantifier": "every act, every analyser behaviour", "why_tests_cant": "All documents.", "anchors": ["hun_law/parsers/semantic_parser.py:ActBlockAmendmentParser"]}
{"id": "C40", "title": "The reference collector covers every listed identifier", "statement": "After any sequence of added articles, paragraphs, points and subpoints, each added item is named by one of the references the collector yields (as it is, or as an end of a range made of two consecutive identifiers); the references name nothing else; lower levels belong to the last item of the levels above; and, if the items stand one after another in the text, the spans of the references follow each other from the start to the end of the text.", "quantifier": "every sequence of collector calls; every parsed reference", "why_tests_cant": "Arbitrary call histories.", "anchors": ["hun_law/parsers/grammatical_analyzer.py:ReferenceCollector", "hun_law/parsers/grammatical_analyzer.py:ReferenceConversionHelper.convert_single_in_text_reference"]}
{"id": "C41", "title": "Amended-and-inserted union covers both parts", "statement": "When an amended reference and an inserted one that comes after it at the same place are merged into one block amendment, its position is the range from the first amended to the last inserted element, and covers everything that either covers.", "quantifier": "every pair of references in canonical form", "why_tests_cant": "All pairs of references.", "anchors": ["hun_law/parsers/grammatical_analyzer.py:BlockAmendmentToBlockAmendment.convert_amendment_and_insertion"]}
{"id": "C42", "title": "Serialisation round trips", "statement": "For every class table and annotation that dict2object can serve (flat unions whose members have different kinds of data, distinct class names, no two leading underscores, acyclic inheritance, __init__ that accepts defaults for equal values), every value of the annotation is written as plain JSON data and read back as an equal value (unless it contains NaN), and as the very same value if no field holds something that only equals its default; the keys written are the fields that differ from their defaults. The classes of hun_law form such a table, so every Act, law text and list of pages round trips, and different acts have different data.", "quantifier": "every class table, annotation and value; every act", "why_tests_cant": "Arbitrarily nested values, types and class hierarchies.", "anchors": ["hun_law/dict2object.py:to_dict", "hun_law/dict2object.py:to_object"]}
{"id": "C43", "title": "Parallel extraction does not depend on scheduling", "statement": "Starting from any objects, do_extraction ends without an error for one number of workers and order of completion exactly when it does for every other, and then gives the same results the same number of times, namely those that the extractors lead to; if everything the extractors lead to is finite, an error in one schedule means an error in all. The order of the results does depend on the number of workers. An object is replaced by what all its extractors yield, in their order; the first failure, or a class without extractors, is an error.", "quantifier": "every job list, worker count and schedule", "why_tests_cant": "Schedules cannot be enumerated by tests.", "anchors": ["hun_law/extractors/all.py:do_extraction", "hun_law/extractors/__init__.py:do_work"]}
{"id": "C44", "title": "Page layout keeps every character", "statement": "The lines of a page of text boxes are its rows from top to bottom, each row the boxes at most 0.2 above the lowest of the row, from left to right, with single spaces where the distance to the next box is large enough or an opening quote follows, and an empty line where the next row is more than 18 below. There is one way to form the rows. If boxes of a row have different x, every box is kept exactly once; only spaces are added to the text. Boxes with different texts on one place are an error. Otherwise, of boxes with the same x in a row only the highest is kept; a page without boxes is an error; the right margin is not the distance from the last box.", "quantifier": "every page of text boxes", "why_tests_cant": "All sets of boxes and positions.", "anchors": ["hun_law/extractors/pdf.py:sort_textboxes_into_dicts", "hun_law/extractors/pdf.py:convert_textbox_dict_to_line", "hun_law/extractors/pdf.py:extract_single_page"]}
{"id": "C45", "title": "Gazette sections partition the issue", "statement": "The section extractor cuts the pages of an issue into runs of pages with the same section title, in one possible way, and gives exactly the runs titled as laws, with their lines in order and only the page titles dropped; an issue that begins with a page without title is an error. The first page is seen twice.", "quantifier": "every parsed issue", "why_tests_cant": "All issues.", "anchors": ["hun_law/extractors/magyar_kozlony.py"]}
{"id": "C46", "title": "Law extraction returns contiguous, ordered law bodies", "statement": "Every law given for a section has as its body a contiguous part of the section's lines less footnotes, laws do not overlap and are in order, and each has the identifier and subject written before its text. A law written as expected, with one blank line before it, subject, text and signatures, is found whatever follows. Laws behind two blank lines are missed, a law without recognised signatures swallows the next one, and three blank lines are an error.", "quantifier": "every law section", "why_tests_cant": "All sections.", "anchors": ["hun_law/extractors/magyar_kozlony.py:MagyarKozlonyLawExtractor"]}
{"id": "C47", "title": "Cache contents survive only completed writes", "statement": "Data written completely is read back equal after any history of uses of other names, each of which may be killed anywhere. The second parse of a file comes from the cache alone and equals the first. A parse killed while it writes its result leaves a file that is an error for every later parse: nothing is computed again. Where the parsed file's directory is missing it is not made, and the parse is an error every time, after all the work. Initialising the cache makes its directory and changes nothing else.", "quantifier": "every history of writes, reads and crash points", "why_tests_cant": "All crash points and histories.", "anchors": ["hun_law/cache.py:CacheObject", "hun_law/extractors/pdf.py:CachedPdfParser"]}
{"id": "C48", "title": "HTML output keeps all text", "statement": "The HTML made of a text with outgoing references is the text, each reference a link to its target around the characters it is about; references that overlap, are negative or empty are an AssertionError. Indenting the tree changes only texts that are white space. The written file, with its tags removed and its entities replaced, shows every identifier, label, title, text, intro, quoted line and wrap-up of the act in order, up to white space. The white space itself is not kept by indentation, and an element with only an intro has no HTML at all.", "quantifier": "every text and list of outgoing references; every act tree, whatever its depth; every element tree for indentation", "why_tests_cant": "All positions of links in all texts, all trees and all characters that need escaping; a test shows a few renderings.", "anchors": ["hun_law/output/html.py:27-43", "hun_law/output/html.py:56-94", "hun_law/output/html.py:93-244"]}
{"id": "C49", "title": "HTML anchors", "statement": "The non-empty ids of the file are exactly those of the articles, paragraphs, points and subpoints outside amendments, in order, each made of the element's place. If siblings have different identifiers that ids can hold, no two labelled elements share an id; an unnamed paragraph has its article's id. The link made for the place of an element is its id, from the same file and from others; the link made for a range is nobody's id.", "quantifier": "every act that can be built and rendered", "why_tests_cant": "Uniqueness over all acts and link targets for all places cannot be enumerated.", "anchors": ["hun_law/output/html.py:54-59", "hun_law/output/html.py:109-164", "hun_law/output/html.py:186-223"]}
{"id": "C50", "title": "Plain text output keeps all text", "statement": "Every title, text, intro, quoted line and wrap-up of an act is in the text file, each after the one before, up to white space, and nothing goes to the standard output. If every label has a text to stand before, the file is exactly the labels and texts in order. Wrapped lines are never longer than the width, and only an indentation as long as the width is an error. A text of words with one space between them is broken only at spaces or between the pieces that textwrap splits a word into, and a line ends where the next piece does not fit. If textwrap splits a text into words of any length with white space between them, only a full line can end with white space. The text of a raw law has one line for each of its lines, marked if bold. A label without text is lost, a label before an amendment is repeated on each of its lines, and with width 0 texts go to the standard output instead of the file.", "quantifier": "every act, every width and every way textwrap may split texts", "why_tests_cant": "All trees, widths and texts.", "anchors": ["hun_law/output/txt.py:34-136", "hun_law/utils.py:350-359"]}
{"id": "C51", "title": "Gazette cache ids identify issues", "statement": "Two different issues never share a cache id or a file, and downloaded and parsed files never share one. Addresses collide exactly for the same issue number in years that differ by a multiple of 100. A download opens only the issue's own address and writes only its own file, and the second time nothing is downloaded, parsed or written. A download killed while its file is written is taken for the whole issue from then on.", "quantifier": "every pair of year/issue numbers, every state of the file system", "why_tests_cant": "All pairs of issues, all crash points.", "anchors": ["hun_law/extractors/kozlonyok_hu_downloader.py", "hun_law/cache.py:CacheObject", "hun_law/extractors/pdf.py:CachedPdfParser"]}
{"id": "C52", "title": "Bracketed titles move into article headers", "statement": "ptke_article_header_fixer turns every adjacent pair of a fully bracketed line and an article line into the article header followed by the title in square brackets, and the article's remaining text; all other lines are kept as they are, the number of lines does not change, and it never fails on lines of single characters.", "quantifier": "every list of lines with one-character parts", "why_tests_cant": "All documents, not only the one act it was written for.", "anchors": ["hun_law/fixups/common.py:ptke_article_header_fixer"]}
{"id": "C53", "title": "No article of an act is missed", "statement": "If the quotes are balanced in the lines of an act and the article headings outside quotes stand at the same distance from the margin, then the articles of the parsed act have exactly the identifiers of the headings outside quotes, in order.", "quantifier": "every act text", "why_tests_cant": "All documents; tests check a few acts.", "anchors": ["hun_law/parsers/structure_parser.py:ActBodyParser", "hun_law/parsers/structure_parser.py:ArticleParser", "hun_law/parsers/structure_parser.py:ActStructureParser"]}
{"id": "C54", "title": "Incremental semantic parsing equals full parsing", "statement": "If elements of a semantically parsed act lose their semantic data (or never had it), add_semantics_to_act restores the act that parsing from nothing gives. This is not so when the element that lost its data was also edited.", "quantifier": "every act, every set of elements without semantic data, every analyser", "why_tests_cant": "All subsets of elements of all acts.", "anchors": ["hun_law/parsers/semantic_parser.py:ActSemanticsParser.add_semantics_to_act", "hun_law/parsers/semantic_parser.py:ActSemanticsParser.add_existing_abbreviations_to_state"]}
{"id": "C55", "title": "Block amendments are cut at consecutive identifiers", "statement": "The lines of a block amendment for articles or paragraphs are cut where a line outside quotes starts with the identifier following that of the block before, no line is lost, and each block is parsed on its own. The identifier of the first block is not compared with the amended position.", "quantifier": "every list of lines and position", "why_tests_cant": "All amendment texts.", "anchors": ["hun_law/parsers/structure_parser.py:BlockAmendmentStructureParser"]}
{"id": "C56", "title": "Converters of parse trees lose and mix nothing", "statement": "References in a list take the parts they leave out from the one before; a text amendment is produced for each reference and each pair of quoted texts, a repeal for each reference and each text, in order; results come in depth-first order; act references and element references are complementary; and the spans satisfy what link insertion needs.", "quantifier": "every parse tree", "why_tests_cant": "Arbitrary lists of references, texts and nested nodes.", "anchors": ["hun_law/parsers/grammatical_analyzer.py:ReferenceConversionHelper.convert_multiple_in_text_references", "hun_law/parsers/grammatical_analyzer.py:TextAmendmentToTextAmendment", "hun_law/parsers/grammatical_analyzer.py:RepealToRepeal", "hun_law/parsers/grammatical_analyzer.py:GrammarResultContainer"]}
{"id": "C57", "title": "Enforcement dates are what the sentence says", "statement": "An exact date is the calendar date that is written, and a date that does not exist is refused; days and months after publication are the number or the ordinal that is written, one if none is; each reference of the sentence gets the same date and repeal date.", "quantifier": "every date node, every list of references", "why_tests_cant": "All dates, numerals and ordinals.", "anchors": ["hun_law/parsers/grammatical_analyzer.py:EnforcementDateToEnforcementDate"]}
{"id": "C58", "title": "Amendments, repeals and abbreviations name what the clause names", "statement": "The act of a clause is its number or else its abbreviation. A structural place sets exactly the level that is written (with its book), roman numerals and ordinals read as numbers. A block amendment of exactly one reference changes that reference, one that only inserts is marked so, a subtitle moved together with an article is placed by that article, a title amendment names the article and both texts, and an abbreviation stands for the act it is introduced with.", "quantifier": "every clause node", "why_tests_cant": "All clauses, levels and numerals.", "anchors": ["hun_law/parsers/grammatical_analyzer.py:convert_structural_reference", "hun_law/parsers/grammatical_analyzer.py:BlockAmendmentToBlockAmendment", "hun_law/parsers/grammatical_analyzer.py:ActReferenceToActIdAbbreviation"]}
{"id": "C59", "title": "Characters become text boxes", "statement": "Whatever pdfminer renders, each page gets one text box per character that is neither white space nor private or format, in the order rendered, on the character's place, with the text the font gives for it, in the case of Latin-2 if only the case differs and with the four wrongly encoded Hungarian letters replaced; characters before the first page are not kept. A text that begins with a format character is dropped whole.", "quantifier": "every sequence of pages and characters, every font", "why_tests_cant": "All fonts and character sequences.", "anchors": ["hun_law/extractors/pdf.py:PDFMinerAdapter", "hun_law/extractors/pdf.py:extract_textboxes", "hun_law/utils.py:chr_latin2"]}
{"id": "C60", "title": "Extraction from gazette to act", "statement": "do_extraction over the package's own extractors always ends. Asked for structure, block amendments or full acts, it yields one object for each raw law it would yield, in the same order: the law read by fixups, structure parser, block amendment parser and semantic parser one after the other; sequentially it stops at the first law that one of these rejects, with its exception, and with several workers the same holds if nothing fails. The laws of gazettes come in reverse order. Acts keep the name, subject and date of their law, and their text is the law's text with its fixups applied. One law that cannot be read stops the extraction of all others.", "quantifier": "every list of issues, every content of downloads, every set of fixups, every analyzer, every number of workers and every order in which workers finish", "why_tests_cant": "All inputs and schedules; tests run one extractor at a time.", "anchors": ["hun_law/extractors/all.py:31-64", "hun_law/extractors/act.py:34-61", "hun_law/extractors/__init__.py:24-41", "hun_law/extractors/magyar_kozlony.py:47-232"]}
{"id": "C61", "title": "The command line program writes each act to its file", "statement": "An issue argument is accepted exactly if it is two integers with a slash between them, else ValueError. After a successful run every file of the output directory that belongs to an act or law holds what the output function makes of the last object with that name, all other files and the standard output are unchanged; without a directory all texts are printed in order. Names are law headers. If no two objects have the same name, neither the number of workers nor the schedule changes any file. A JSON file is read back as an equal act. Findings: --single-act is ignored for structure_only and ba_only; acts of the same name overwrite each other, depending on the number of workers; HTML of raw laws raises after the old file is lost; a name with a slash stops the run.", "quantifier": "every list of arguments, every extraction result, every state of the file system, every schedule", "why_tests_cant": "The command line program has no tests; all arguments, file systems and schedules.", "anchors": ["hun_law/cli.py:35-132", "hun_law/output/json.py:23-29"]}
{"id": "C62", "title": "The fixup editor saves the edit that was made", "statement": "If the replacements made of an edited text can be applied, no line is emptied and the last line is not an edited copy of another line, applying them gives exactly the edited texts, each unchanged line is kept as it is, and each changed one keeps its common characters in place. They can be applied whenever the old text of each changed line is there once and is not among the new texts. An unedited file gives no replacements; the editor opens at the first line after one closing quote too many, or else at the last line outside of quotes. What is saved is done after all earlier fixups of that act and changes nothing for other acts. Errors are ValueErrors. Findings: editing the last of three equal lines changes the second one; an emptied line is removed; the last line of a text is never found by its context; replacements that cannot be applied are saved, after which the act cannot be extracted at all.", "quantifier": "every list of lines, every edited text, every set of fixups and every sequence of edits", "why_tests_cant": "The editor has no tests, and the property is about all texts and edits.", "anchors": ["fixup_editor.py:49-156", "hun_law/fixups/text_fixups.py:25-61"]}
{"id": "C63", "title": "What the grammar finds in a text is in the text", "statement": "Whatever text the grammatical analyzer is given, each reference it returns stands on a non-empty piece of the text that begins and ends with a visible character; the act of a reference is an abbreviation that is in the text or the number of an act written there, and every article, paragraph, point and subpoint identifier of it has the form of its kind and its characters stand together in the text. The same holds for the references of amendments, repeals and enforcement dates. Replaced, replacing and repealed texts are in the text between balanced quotes; dates, numbers of days and months, and numbers of books, parts, titles and chapters are written in the text in digits, words or roman numerals. An abbreviation is introduced only if it is in the text, for an act named in the text. Positions of references in a parsed act are therefore ordered and inside the element's text.", "quantifier": "every text", "why_tests_cant": "The grammar tests are 171 sentences; this is about all texts, including those that are no sentences of laws.", "anchors": ["hun_law/grammar/grammar.ebnf:20-352", "hun_law/parsers/grammatical_analyzer.py:56-729"]}
{"id": "C64", "title": "Which texts the grammatical analyzer can read", "statement": "The grammar reads a text exactly if it has a character that is not white space. The analyzer then gives a result unless the text speaks of subpoints, is a block amendment of a subtitle, is a block amendment that both amends and inserts, or gives a date of entering into force. Finding: each of these four can make it fail, on sentences that laws could contain.", "quantifier": "every text", "why_tests_cant": "The tests only contain sentences that can be read; the property excludes exceptions for all other texts.", "anchors": ["hun_law/grammar/grammar.ebnf:20-352", "hun_law/parsers/grammatical_analyzer.py:56-749"]}
{"id": "C65", "title": "References found in a text do not end together, and overlap only if ranges are written", "statement": "Whatever text the grammatical analyzer is given, no two references it returns have the same end; if the text has no dash of a range (any dash other than that of a suffix like §-a), no two of them overlap. Hence an act whose texts avoid the four kinds of C64 gets its semantic data without failure, and if there are no ranges in it, the references of every element can be ordered and do not overlap. Finding: with a range between two paragraphs that follow one another, references overlap.", "quantifier": "every text; every act as the structure parser builds it, without semantic data", "why_tests_cant": "Overlaps depend on the order of identifiers in a list; the tests have no list in which a range stands between neighbours.", "anchors": ["hun_law/parsers/grammatical_analyzer.py:58-230", "hun_law/parsers/semantic_parser.py:43-213"]}
{"id": "C66", "title": "HTML can be made of an act", "statement": "HTML output succeeds for every act in which every element has children or a non-empty text, references are in order and do not overlap, every quoted block has a non-empty line and finite distances between indents, and the numbers of structural elements can be written. It also succeeds after references were found by the grammar, if the texts avoid the kinds of C64 and ranges. Finding: with ranges the output can fail, and each of the other conditions is needed too.", "quantifier": "every act", "why_tests_cant": "There is no test of the HTML output.", "anchors": ["hun_law/output/html.py:25-244", "hun_law/parsers/grammatical_analyzer.py:58-230"]}
{"id": "C67", "title": "References written in a sentence are found", "statement": "In every sentence made of words, references (article, paragraph, point, subpoint, each a single identifier or a range, with any endings) and acts (by number, with or without a new abbreviation, or by abbreviation, each with a list of references), the grammatical analyzer finds exactly these references, each with its act, its parts and its place in the text, and exactly the abbreviations that are introduced, provided the sentence is no amendment, no repeal and says nothing of entering into force. Such a sentence can be read in one way only.", "quantifier": "every sentence of this form, of any length", "why_tests_cant": "The tests have a few dozen sentences; that a rule of the grammar does not take away what another one should read depends on all combinations of neighbouring words, numbers and endings.", "anchors": ["hun_law/grammar/grammar.ebnf:17-130", "hun_law/parsers/grammatical_analyzer.py:58-330", "hun_law/parsers/grammatical_analyzer.py:666-729"]}
{"id": "C68", "title": "Amendments written in the usual ways are recognised", "statement": "Of every sentence that names an act after an article word and a title, then a reference to it, of which every part may be a list of identifiers, and one of the endings of a replacement, or an insertion (of articles, paragraphs, points or subpoints, with the parts they are inserted in) and one of its endings, and then a colon, the grammatical analyzer gives, if the lists come to one identifier or range each, exactly one block amendment, which is of this reference and says whether it is an insertion; exactly the references to the act and to the amended part, with their places in the text; and the abbreviation that is introduced. If a list comes to more, it gives nothing but the reference to the act and the abbreviation. A sentence that replaces and then inserts, where the article or the paragraph may be referred to as \"a §\" or \"a bekezdés\", gives one block amendment as well: of what is replaced, if what is inserted begins inside it, otherwise of the range from the beginning of the one to the end of the other; if only one of the two lists comes to one range, then that one alone, and if neither does, nothing; and if there is no such range the analyzer raises an error. Such a sentence can be read in one way only.", "quantifier": "every sentence of this form: any title, act, reference and endings", "why_tests_cant": "The tests have some tens of amendments; the rules are tried in order and each can take what belongs to another one, depending on the combination of parts and words.", "anchors": ["hun_law/grammar/grammar.ebnf:150-213", "hun_law/parsers/grammatical_analyzer.py:195-230", "hun_law/parsers/grammatical_analyzer.py:330-395"]}
{"id": "C69", "title": "Amendments of texts and titles and repeals written in the usual ways are recognised", "statement": "Of every sentence that names an act (after an article word and a title, or after one of the beginnings of a repeal), then a list of references to its parts, of which every part may be a list of identifiers, and then replacements of quoted texts, the replacement of a quoted text in the title of an article, quoted texts to be repealed or nothing, the grammatical analyzer gives exactly: one text amendment for each reference and replacement, one title amendment, or one repeal for each reference and text; the reference to the act and the references to the parts, in order and with their places in the text, each completed from the one before it; and the abbreviation that is introduced. Such a sentence can be read in one way only and is never taken for a block amendment.", "quantifier": "every sentence of this form: any number of references and of quoted texts, any quoted texts without inner quotation marks", "why_tests_cant": "The tests have some tens of such sentences; the number of references and replacements and the quoted texts, which can have anything in them, are not bounded.", "anchors": ["hun_law/grammar/grammar.ebnf:276-319", "hun_law/parsers/grammatical_analyzer.py:44-47", "hun_law/parsers/grammatical_analyzer.py:193-211", "hun_law/parsers/grammatical_analyzer.py:537-627"]}
{"id": "C70", "title": "The day of entering into force is recognised when it is written in the usual ways", "statement": "Of every sentence that says \"E törvény\", \"Ez a törvény\" or an article word, perhaps an exception between dashes, perhaps a list of references, of which every part may be a list of identifiers, then a calendar date, a number of days after publication or a day of a month after publication, \"lép hatályba\" and perhaps the date on which it is repealed, the grammatical analyzer gives exactly: one enforcement date for each reference, or one without a position if there is none, each with the day and the date of repeal that are written; and the references, then the references of the exception, with their places in the text. If one of the dates is not in the calendar, the sentence is refused as a whole. Such a sentence can be read in one way only and is never taken for an amendment or a repeal.", "quantifier": "every sentence of this form: any year, month, day and number of days, any number of references", "why_tests_cant": "The tests have about twenty such sentences; numbers, ordinals, dates and lists of references combine without bound, and an impossible date is in none of the tests.", "anchors": ["hun_law/grammar/grammar.ebnf:236-274", "hun_law/grammar/grammar.ebnf:327-345", "hun_law/parsers/grammatical_analyzer.py:466-534"]}
{"id": "C71", "title": "What the quick check before the grammar misses, and what is stored about sentences", "statement": "The grammar is only run on texts of at most 10000 characters that contain \")\", \"§\", \"törvén\", \"hely\", \"hatály\" or \"Hatály\". In any other text of at most 10000 characters the grammar would find nothing but references to acts and to numbered points, and insertions of numbered points or of structural elements not placed next to an article; it would never find an abbreviation, an article, a paragraph, a replacement, a repeal or a day of entering into force. So no amendment of a text, repeal or enforcement sentence written in the usual ways is missed. What a sentence of an act says (written in the usual ways) is stored at its element: the introduced abbreviations, the references that end in its own part of the text, sorted, and the semantic data, both with the abbreviations known there replaced. It is not true that nothing is missed: an inserted subtitle of an abbreviated act is converted to a block amendment but its semantic data is stored as empty.", "quantifier": "every text, and every unparsed act", "why_tests_cant": "The tests run the grammar directly, without the check, and the check is tested on no text; texts without the six words are without bound.", "anchors": ["hun_law/parsers/semantic_parser.py:40", "hun_law/parsers/semantic_parser.py:100-200", "hun_law/grammar/grammar.ebnf:1-345"]}
{"id": "C72", "title": "Layouts of whole acts and of structural block amendments are parsed", "statement": "If a list of lines is a layout of an act (a preamble in which nothing starts; then articles and structural elements, each laid out as in C33 and C28, with headings numbered one after the other, article headings at the same distance from the margin, subtitles in bold, and no other line outside quotes that would be a heading), the structure parser returns exactly that act. In particular an act whose texts are no headings, printed with one line for each text, is read back. The same for block amendments of structural elements, where numbers do not count; if lines come before the first element there they are lost, and nothing else is. It is not true that every heading is found: a chapter whose number does not follow becomes the end of the text before it; in a block amendment a subtitle that is not bold is lost if it is the first line, and a bold title of a chapter becomes a subtitle.", "quantifier": "every act and every layout of it", "why_tests_cant": "The tests parse a few gazette extracts; the combinations of structural elements, articles, numbering and lines that look like headings are without bound.", "anchors": ["hun_law/parsers/structure_parser.py:87-225", "hun_law/parsers/structure_parser.py:596-800"]}
{"id": "C73", "title": "What the parsers return is fit for what is done with it", "statement": "Every act that the structure parser returns was made by the constructors, has paragraphs as the children of all its articles, no semantic data, and a text or children in every element; the block amendment step keeps this. So the act is ready for semantic parsing. All dates that the grammar finds, and the dates of all laws of a gazette, are dates of the calendar. Hence every law of a gazette that can be read up to the last step can be written as JSON and read back, and is equal to what was read back, if the positions in its lines are finite numbers. Identifiers of elements in an article differ, and ids can hold them; if the numbers of the articles differ too, every place in the act is found by its reference, and no two elements with a label have the same id in the HTML. It is not true that every act the structure parser returns gets semantic data: an element without text stops it with an IndexError.", "quantifier": "every list of lines, every gazette, every analyser result", "why_tests_cant": "The tests run the steps on a few extracts and compare the results; that no input whatever makes a step return what the next one is not prepared for cannot be tested.", "anchors": ["hun_law/extractors/act.py:44-61", "hun_law/parsers/structure_parser.py:87-830", "hun_law/parsers/semantic_parser.py:40-283", "hun_law/parsers/grammatical_analyzer.py:330-560", "hun_law/utils.py:70-122", "hun_law/extractors/magyar_kozlony.py:47-260"]}
{"id": "C74", "title": "Laws from their lines to what their sentences say", "statement": "If the lines of a law are a layout of an act, the introductions of its quoted blocks are sentences that amend in a usual way (or say something else, or are too long to be read), each amending block is a layout of what is put in (points, subpoints, paragraphs, articles, or chapters and other structural elements with their articles), and every text of the act is a sentence written in a usual way, or too dull or too long to be read, then the law is read without an error as exactly that act: the amendments are in the place of the quoted blocks, with the beginning and the end of the amended sentence if these are given in brackets, and every element has the abbreviations its sentence introduces, the references that end in its own part of the sentence in the order of their positions, and the amendments, repeals and days it says, with the abbreviations replaced that were introduced up to there. There is only one such act for given lines, and it can be written as JSON and read back.", "quantifier": "every law that is written this way: every number of elements, texts, references, abbreviations and amendments", "why_tests_cant": "The tests check each step on its own, with a few examples; that the steps fit together for every combination of layouts, amendments and sentences cannot be tried out.", "anchors": ["hun_law/extractors/act.py:44-61", "hun_law/parsers/structure_parser.py:87-830", "hun_law/parsers/semantic_parser.py:40-283", "hun_law/parsers/grammatical_analyzer.py:330-560", "hun_law/grammar/grammar.ebnf:1-345"]}
{"id": "C75", "title": "What is read from data that the program did not write", "statement": "For all attrs classes and annotations that work together and every piece of JSON data, reading with dict2object succeeds exactly with the value that the specification gives and is an error otherwise: an object is read as the only possible class, or as the class that __type__ names, or without a name as the first one; every key has to be a field of that class, every field without a default has to have a key, missing fields get their defaults, and __init__ has to accept the values; names of enum members and classes have to be known; members of a union that are not classes are chosen by the kind of the data. The order of keys does not matter, unknown class names are refused where several classes are possible, and annotations with two classes of the same name are refused for reading and for writing.", "quantifier": "all class tables, annotations and JSON data", "why_tests_cant": "The tests only read data that the program wrote, for a few classes; what happens to other data is a statement about all JSON values, which are unboundedly deep.", "anchors": ["hun_law/dict2object.py:85-404", "hun_law/structure.py:84-260"]}
{"id": "C76", "title": "Issues of the gazette are read from their characters to the files of their acts", "statement": "For every run of the program on issues that are printed as the specification says (characters in rows, the name and the date on the first page, pages in sections, laws with header, subject, text and signatures, each law the layout of an act with the meaning of its sentences), with any fixups, any number of workers and any order of their work, and with JSON written to a directory that can be made: it ends without an error, prints nothing, writes one file for each act that was asked for, which reads back as an act equal to it, and leaves all other files as they were. No law is missed and nothing else is taken for one.", "quantifier": "all issues, pages, characters, laws, acts, fixups, schedules and file systems", "why_tests_cant": "The tests of the extractors use a few pages as lines; no test goes from the characters of an issue to the files, which would need all printed issues and all schedules.", "anchors": ["hun_law/cli.py:88-132", "hun_law/extractors/pdf.py:34-260", "hun_law/extractors/magyar_kozlony.py:47-232", "hun_law/extractors/all.py:31-64", "hun_law/extractors/act.py:34-61", "hun_law/output/json.py:23-29"]}
{"id": "C77", "title": "The program's own fixups do what their entries say", "statement": "For every act and every text of it (lines of one-character parts, as they come from a PDF file), the fixups that the program registers succeed exactly if their entries fit one after the other (the line to be changed is there once, after the lines that are required before it), and then each line reads as its entry says and all other lines are kept; acts without an entry are not touched; every entry can be met, every key is the identifier of an act, and the resulting lines can be cut behind the quotes and numbers that the parser looks for, except for one line of one act.", "quantifier": "all acts, bodies and entries of the table", "why_tests_cant": "The table has 472 entries for 156 acts, and no test runs them; the acts themselves are not in the repository.", "anchors": ["hun_law/fixups/text_fixups.py:25-61", "hun_law/fixups/replacement_fixups.py:7-2228", "hun_law/fixups/common.py:26-189"]}
{"id": "C78", "title": "JSON files have the documented keys in a fixed order", "statement": "For every act, law and list of pages whatsoever, the data that is written to its JSON file (or to the cache) has exactly the keys given for its kind, in that order: parts that are not there, False flags, a right margin of zero and single days and months are left out, None is written where a value is required, and the name of the class comes last, only where several classes are possible. The files that the program writes for printed issues have this data, it is read back as an equal act, and different acts have different data.", "quantifier": "all acts, laws, pages", "why_tests_cant": "Tests convert a few example acts; which keys appear depends on every combination of missing parts, kinds and nested amendments.", "anchors": ["hun_law/dict2object.py:28-418", "hun_law/output/json.py:23-29", "hun_law/structure.py:33-1091", "hun_law/utils.py:28-169", "hun_law/extractors/pdf.py:250-260"]}
{"id": "C79", "title": "The list of acts and issues has a line for each act of an issue", "statement": "For every page of the server, the script keeps the texts that are not blank in their order, and prints a line for exactly those that start like an act's identifier and are followed by one that does not; read as comma separated values the line has the year, the issue, the identifier and the title, if the title has no quotes, or neither a comma nor a quote at its start, and there are no line breaks. The issues are requested in order, each once, until the first failure, and by then the lines of the earlier ones have been printed.", "quantifier": "all pages, years, issues, servers", "why_tests_cant": "There is no test of the script, and it asks a server for 3949 pages.", "anchors": ["generate_act_to_mk_issue.py:8-57"]}
{"id": "C80", "title": "JSON files are JSON texts of what was written, are read back as it, and are not read when cut short", "statement": "For all data made of objects, lists, strings, numbers, booleans and null, what json.dump writes with the options of output/json.py is a text of RFC 8259 that means the data, and json.load reads it as the data; the same holds with the options of cache.py if no half of a surrogate pair is in a string, and the text is then in ASCII. Every text of RFC 8259 is read as what it means, also with other white space and escapes; a proper beginning of the text of an object, list or string is refused. So the files that the program writes for printed issues are read back as acts equal to the printed ones, without any assumption about JSON.", "quantifier": "all data, texts, issues", "why_tests_cant": "The tests compare files of a few acts; escapes, nesting, and where a file may be cut off are unbounded.", "anchors": ["hun_law/output/json.py:23-29", "hun_law/cache.py:40-46"]}
{"id": "C81", "title": "What is read from the gazette can be shown", "statement": "The number of every structural element that is read can be written as in the text. An act can be printed as plain text exactly if what is printed of it fits: texts begin before the right margin, quoted lines can be placed, elements have a text or children. Of an act that is read, in any of the steps, only this has to be asked: no element has an empty text, quoted blocks have a line that is not empty, and texts begin before the margin; a page can be made of it if besides no text has a range of articles, paragraphs or points. So the program writes, for printed issues, a text or a page for every act that is asked for, in which its texts stand.", "quantifier": "all laws, acts, widths, issues", "why_tests_cant": "The tests have one act for the text and one for the page; whether any of the acts that the parsers can build stops the output takes all of them.", "anchors": ["hun_law/output/txt.py:34-136", "hun_law/output/html.py:56-244", "hun_law/structure.py:94-210", "hun_law/cli.py:103-132"]}
{"id": "C82", "title": "The cache changes nothing but the number of downloads", "statement": "A run of the program in one process, from a disk whose cache is right about the issues asked for (each has both its files, only the downloaded one, or none), does what a run without a cache would do: the same text is printed, the same error ends it, and every file outside of the cache has the same content. Files that were in the cache are kept as they are. An address is opened at most once, and only for an issue that is not in the cache; a run without an error opens all of these and leaves both files of every issue in the cache. After such a run with an output directory, a further run opens no address, ends without an error and leaves every file with the same content, whatever the net and the PDF library do by then. For printed issues this gives the files of exactly the acts printed in them.", "quantifier": "all disks, issues, nets, PDF libraries, cache and output directories, output formats and steps, errors included", "why_tests_cant": "Tests stub the network and use a fresh directory; that the cache is transparent is about all states a disk can be in and about runs after runs.", "anchors": ["hun_law/cli.py:88-118", "hun_law/extractors/all.py:38-64", "hun_law/cache.py:22-60", "hun_law/extractors/kozlonyok_hu_downloader.py:27-47", "hun_law/extractors/pdf.py:246-260"]}
{"id": "C83", "title": "Worker processes can share the cache", "statement": "Workers with different issues use the cache at the same time: each one looks for its files, downloads, makes directories, writes byte by byte and reads, and their steps come in any order, while other processes change things outside of the cache. Whenever a worker has finished, it has the pages that there are of its issue in the cache or in the net, or the error on the way to them; without an error both files of its issue are in the cache, complete. Files that were in the cache are never changed. No address is opened twice, and only those of issues that were not in the cache are opened. A step changes only the two files of its issue and the directories above them. Every worker comes to an end, and there is no state from which they cannot all finish. What the main process collects, in whatever order the workers finish, is what it would collect without a cache. If one issue is asked for twice this does not hold: a worker can read the file that another one has just begun to write. It may be that all workers finish without an error and have the wrong pages.", "quantifier": "all sets of different issues, all disks whose cache is right about them, all interleavings, all nets and PDF libraries, errors included", "why_tests_cant": "Races show only in some of the interleavings, which a test does not control; the claim is about all of them.", "anchors": ["hun_law/extractors/all.py:30-64", "hun_law/cache.py:22-46", "hun_law/extractors/file.py:19-22", "hun_law/extractors/kozlonyok_hu_downloader.py:38-47", "hun_law/extractors/pdf.py:250-260"]}
{"id": "C84", "title": "Lists of identifiers in references are found", "statement": "In every sentence made of words, acts and references, where any part of a reference may be a list of identifiers and ranges (\"3., 5. és 8–10. § (1) és (2) bekezdése\"), the grammatical analyzer finds exactly the references that the lists say: two neighbours that follow each other are put together to one range, all are in the order of the text, every element but the last is a reference of its own that has its place and the parts before the list, and the parts after a list belong to its last element. Every such list has exactly one reading, the number of references is one more than the number of elements that are not the last of their list, and the sentences of C67 are among these.", "quantifier": "every sentence of this form, of any length, lists of any length at every level", "why_tests_cant": "Tests have lists of two or three elements at one level; which identifiers are put together, and which rule of the grammar reads them, depends on all combinations of kinds, separators and endings.", "anchors": ["hun_law/grammar/grammar.ebnf:17-130", "hun_law/parsers/grammatical_analyzer.py:58-330", "hun_law/parsers/grammatical_analyzer.py:666-729"]}
{"id": "C85", "title": "Amendments and repeals of chapters, parts, titles and numbered subtitles are recognised", "statement": "Every sentence that names an act and says that a chapter (IV/A. Fejezet), a title (IIIA. Cím), a part (Harmadik Rész), the latter two possibly in a book (Második Könyv), or a subtitle with a number (5/A. alcím) of it is replaced, inserted or repealed is found by the grammatical analyzer, and gives exactly one amendment or repeal, of this division of this act, with the Roman numerals and ordinals turned into numbers. A title that is inserted in a book (Első Könyve a következő III. Címmel egészül ki) is the title of that book. The sentence can be read in one way only, and it is not an amendment of articles or of what is in them. The act is among the references of a repeal, and there are no references in an amendment.", "quantifier": "every act, with its number or abbreviation and any title before it; every Roman numeral with or without a letter, every number, the nineteen ordinals; every ending of the division and every usual ending of the sentence", "why_tests_cant": "Tests have a few such sentences; whether a rule that is tried before takes the sentence, or a numeral is taken for an ordinal or a letter for a part of the numeral, depends on all numerals, ordinals, letters and words.", "anchors": ["hun_law/grammar/grammar.ebnf:120-197", "hun_law/grammar/grammar.ebnf:206-231", "hun_law/grammar/grammar.ebnf:306-319", "hun_law/parsers/grammatical_analyzer.py:237-277", "hun_law/parsers/grammatical_analyzer.py:630-684"]}
{"id": "C86", "title": "Subtitles that are inserted, replaced or repealed are recognised, with their places", "statement": "Every sentence that names an act and says that a subtitle is inserted in it (a 300. §-t megelőzően a következő alcímmel egészül ki), at no given place, in a chapter, or before or after an article, or that the subtitle before or after an article is replaced (a 83. §-t megelőző alcím helyébe a következő alcím lép), or repealed (Hatályát veszti a Btk. 297. §-t megelőző alcíme), is found by the grammatical analyzer, and gives exactly one amendment or repeal in this act at this place. A subtitle that is inserted with articles (a következő alcímmel és 212/A. §-sal egészül ki) is before the first of them, together with it, whatever place is named before, and so is one that is named after the articles (a következő 226/A. §-sal és az azt megelőző alcímmel egészül ki, 349. §-a és az azt megelőző alcím helyébe a következő rendelkezés lép). A subtitle that is named by its title in quotes (a „Kényszermunka” című alcíme) is replaced or repealed as the subtitle with this title, without the spaces around it. The sentence can be read in one way only, also where it could be about a division with a number, and it is not an amendment of articles or of what is in them.", "quantifier": "every act, with its number or abbreviation and any title before it; every chapter, article and range of articles, before and after, with every ending; every title without quotes in it; every usual ending of the sentence", "why_tests_cant": "Tests have a few such sentences; that an article named as a place is not taken for the article that is amended, and that no rule tried before takes the sentence, depends on all acts, chapters, articles, places and words.", "anchors": ["hun_law/grammar/grammar.ebnf:120-197", "hun_law/grammar/grammar.ebnf:206-221", "hun_law/parsers/grammatical_analyzer.py:237-277", "hun_law/parsers/grammatical_analyzer.py:398-437", "hun_law/grammar/grammar.ebnf:306-319", "hun_law/parsers/grammatical_analyzer.py:630-650"]}
{"id": "C87", "title": "What is inserted or replaced at a named place is recognised, and the place is not stored", "statement": "Every sentence that names an act and a place in it (XX. Fejezete, Hatodik Könyv Második Része, a 92. §-t követően, „A vételi jog” alcíme) and says that one reference to articles or to what is in them is inserted there (a következő 21. §-sal egészül ki), is replaced there (3. § (1) bekezdése helyébe a következő rendelkezés lép), or that one is replaced and another is inserted (…lép, és a bekezdés a következő c) ponttal egészül ki), is found by the grammatical analyzer. It gives exactly one amendment, that of this reference in this act, or of the one reference that stands for both, together with the act and the references at their positions in the text. The place is not stored: every other place of the same length gives the same result. The sentence can be read in one way only, also if it is read as one without a place, and it is neither an amendment of a subtitle nor of another division.", "quantifier": "every act, with its number or abbreviation and any title before it; every chapter, part, title, numbered subtitle, article and title without quotes in it as the place; every single reference that is inserted or replaced; every usual ending of the sentence", "why_tests_cant": "Tests have a few such sentences; that no rule for subtitles, divisions or references takes the place for what is amended depends on all acts, places, titles and references.", "anchors": ["hun_law/grammar/grammar.ebnf:193-213", "hun_law/parsers/grammatical_analyzer.py:333-395"]}
