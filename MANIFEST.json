{
 "claims": [
  {
   "property": "C01",
   "status": "proved",
   "theorems": [
    "C01_roman_roundtrip",
    "C01_roman_standard",
    "C01_roman_nonpositive",
    "C01_roman_accepts"
   ],
   "note": ""
  },
  {
   "property": "C02",
   "status": "proved",
   "theorems": [
    "C02_postfix_roundtrip",
    "C02_unconditional_refuted"
   ],
   "note": ""
  },
  {
   "property": "C03",
   "status": "proved",
   "theorems": [
    "C03_ordinal_text",
    "C03_ordinal_parse",
    "C03_ordinal_reject",
    "C03_ordinal_inverse",
    "C03_ordinal_injective"
   ],
   "note": ""
  },
  {
   "property": "C04",
   "status": "proved",
   "theorems": [
    "C04_never_type_error",
    "C04_compares_readings",
    "C04_always_readable",
    "C04_reading_unique",
    "C04_irreflexive",
    "C04_asymmetric",
    "C04_transitive",
    "C04_incomparable"
   ],
   "note": ""
  },
  {
   "property": "C05",
   "status": "proved",
   "theorems": [
    "C05_successor",
    "C05_forward",
    "C05_no_repeats",
    "C05_mixed_refuted"
   ],
   "note": ""
  },
  {
   "property": "C06",
   "status": "proved",
   "theorems": [
    "C06_successor",
    "C06_forward",
    "C06_no_repeats"
   ],
   "note": ""
  },
  {
   "property": "C07",
   "status": "proved",
   "theorems": [
    "C07_letters",
    "C07_only_letters_or_consecutive",
    "C07_increasing"
   ],
   "note": ""
  },
  {
   "property": "C08",
   "status": "proved",
   "theorems": [
    "C08_interval",
    "C08_contiguous"
   ],
   "note": ""
  },
  {
   "property": "C09",
   "status": "proved",
   "theorems": [
    "C09_levels",
    "C09_unchecked",
    "C09_checked",
    "C09_yielded"
   ],
   "note": ""
  },
  {
   "property": "C10",
   "status": "proved",
   "theorems": [
    "C10_join",
    "C10_join_keeps",
    "C10_flatten",
    "C10_split_list"
   ],
   "note": ""
  },
  {
   "property": "C11",
   "status": "proved",
   "theorems": [
    "C11_content",
    "C11_positions",
    "C11_error",
    "C11_single_chars",
    "C11_last_part_refuted"
   ],
   "note": ""
  },
  {
   "property": "C12",
   "status": "proved",
   "theorems": [
    "C12_content",
    "C12_positions",
    "C12_positions_refuted"
   ],
   "note": ""
  },
  {
   "property": "C13",
   "status": "proved",
   "theorems": [
    "C13_constructor",
    "C13_forward",
    "C13_days_later_total",
    "C13_backward",
    "C13_additive",
    "C13_undo"
   ],
   "note": ""
  },
  {
   "property": "C14",
   "status": "proved",
   "theorems": [
    "C14_hungarian",
    "C14_dots",
    "C14_slashes",
    "C14_roundtrip"
   ],
   "note": ""
  },
  {
   "property": "C15",
   "status": "proved",
   "theorems": [
    "C15_delete",
    "C15_add_empty",
    "C15_errors"
   ],
   "note": ""
  },
  {
   "property": "C16",
   "status": "proved",
   "theorems": [
    "C16_replace",
    "C16_succeeds",
    "C16_edited_text",
    "C16_any_parts",
    "C16_errors",
    "C16_second_replacement_refuted",
    "C16_appended_position_refuted"
   ],
   "note": ""
  },
  {
   "property": "C17",
   "status": "proved",
   "theorems": [
    "C17_registered",
    "C17_unregistered"
   ],
   "note": ""
  },
  {
   "property": "C18",
   "status": "proved",
   "theorems": [
    "C18_assoc",
    "C18_empty",
    "C18_twice",
    "C18_components",
    "C18_every_case"
   ],
   "note": ""
  },
  {
   "property": "C19",
   "status": "proved",
   "theorems": [
    "C19_lt",
    "C19_others",
    "C19_strict_order",
    "C19_total",
    "C19_canonical_ids",
    "C19_weak_order_refuted",
    "C19_ancestors_first",
    "C19_ranges_raise"
   ],
   "note": ""
  },
  {
   "property": "C20",
   "status": "proved",
   "theorems": [
    "C20_contains",
    "C20_reflexive",
    "C20_transitive",
    "C20_gap_refuted"
   ],
   "note": ""
  },
  {
   "property": "C21",
   "status": "proved",
   "theorems": [
    "C21_ends_are_single",
    "C21_is_range",
    "C21_ends",
    "C21_single",
    "C21_make_range",
    "C21_make_range_ends"
   ],
   "note": ""
  },
  {
   "property": "C22",
   "status": "proved",
   "theorems": [
    "C22_inverse",
    "C22_injective",
    "C22_hyphen_refuted"
   ],
   "note": ""
  },
  {
   "property": "C23",
   "status": "proved",
   "theorems": [
    "C23_is_parent_of",
    "C23_parent_chain",
    "C23_parent_removes_deepest",
    "C23_reaches_empty",
    "C23_strict_order",
    "C23_gap_refuted"
   ],
   "note": ""
  },
  {
   "property": "C24",
   "status": "proved",
   "theorems": [
    "C24_only_act",
    "C24_only_act_structural",
    "C24_idempotent"
   ],
   "note": ""
  },
  {
   "property": "C25",
   "status": "proved",
   "theorems": [
    "C25_elements",
    "C25_errors",
    "C25_articles",
    "C25_everywhere",
    "C25_text_or_children_refuted"
   ],
   "note": ""
  },
  {
   "property": "C26",
   "status": "proved",
   "theorems": [
    "C26_finds",
    "C26_finds_or_raises",
    "C26_sound",
    "C26_article_range",
    "C26_paragraph_range",
    "C26_point_range",
    "C26_subpoint_range",
    "C26_ignored_parts_refuted"
   ],
   "note": ""
  },
  {
   "property": "C27",
   "status": "proved",
   "theorems": [
    "C27_visits",
    "C27_result",
    "C27_identity",
    "C27_gap_refuted"
   ],
   "note": ""
  },
  {
   "property": "C28",
   "status": "proved",
   "theorems": [
    "C28_headings",
    "C28_roundtrip"
   ],
   "note": ""
  },
  {
   "property": "C29",
   "status": "proved",
   "theorems": [
    "C29_written",
    "C29_children_numbered",
    "C29_article",
    "C29_act",
    "C29_articles_refuted"
   ],
   "note": "C29_articles_refuted: article numbers are not checked for order or repetition."
  },
  {
   "property": "C30",
   "status": "proved",
   "theorems": [
    "C30_nothing_lost"
   ],
   "note": ""
  },
  {
   "property": "C31",
   "status": "proved",
   "theorems": [
    "C31_outside_quotes",
    "C31_act",
    "C31_preamble_refuted"
   ],
   "note": "C31_preamble_refuted: the preamble is cut at the first heading even inside a quote."
  },
  {
   "property": "C32",
   "status": "proved",
   "theorems": [
    "C32_quoted",
    "C32_balance_refuted"
   ],
   "note": "C32_balance_refuted: a one-line block is closed without looking at the quote level."
  },
  {
   "property": "C33",
   "status": "proved",
   "theorems": [
    "C33_paragraph",
    "C33_points",
    "C33_render",
    "C33_article",
    "C33_render_article"
   ],
   "note": "layout/article_layout (LayoutSpec.v) state the conditions on the lines: where the text of an item may not look like the next item, where the text after a list starts. Whole acts are the subject of C29 and C53."
  },
  {
   "property": "C34",
   "status": "proved",
   "theorems": [
    "C34_paragraph_errors",
    "C34_article_errors",
    "C34_act_errors",
    "C34_digraph_refuted"
   ],
   "note": "Points and subpoints always get lines with their header; without one they would raise AssertionError. C34_digraph_refuted is the finding on ny/sz."
  },
  {
   "property": "C35",
   "status": "proved",
   "theorems": [
    "C35_title",
    "C35_title_complete",
    "C35_three_lines_refuted",
    "C35_number"
   ],
   "note": "C35_three_lines_refuted is the finding on three-line titles."
  },
  {
   "property": "C36",
   "status": "proved",
   "theorems": [
    "C36_only_adds",
    "C36_marked",
    "C36_idempotent",
    "C36_succeeds",
    "C36_empty_text_refuted"
   ],
   "note": "The grammatical analyser is a parameter of every statement (pystr -> option analysis). C36_empty_text_refuted is the finding on texts of which nothing is left."
  },
  {
   "property": "C37",
   "status": "proved",
   "theorems": [
    "C37_positions",
    "C37_tighter_refuted"
   ],
   "note": "sane_spans asks start < end of what the analyser returns. C37_tighter_refuted: a reference may reach over the full stop that is added."
  },
  {
   "property": "C38",
   "status": "proved",
   "theorems": [
    "C38_stored",
    "C38_later",
    "C38_document_order_refuted"
   ],
   "note": "C38_document_order_refuted is the finding on lead-ins that introduce abbreviations."
  },
  {
   "property": "C39",
   "status": "proved",
   "theorems": [
    "C39_converted",
    "C39_others",
    "C39_failure_refuted",
    "C39_wrap_up_refuted"
   ],
   "note": "C39_failure_refuted: BlockAmendmentStructureParsingError is not a SubArticleParsingError, so it is not caught. C39_wrap_up_refuted: closing text lost."
  },
  {
   "property": "C40",
   "status": "proved",
   "theorems": [
    "C40_covered",
    "C40_sound",
    "C40_nesting",
    "C40_count",
    "C40_grouping",
    "C40_spans",
    "C40_parsed",
    "C40_overlap_refuted",
    "C40_exact_refuted"
   ],
   "note": "Model: the collector and everything that calls it, from parse trees (tatsu's output, not modelled) on. Refuted: spans overlap when a third item stands between two that are merged; a merged range contains inserted identifiers that were not listed."
  },
  {
   "property": "C41",
   "status": "proved",
   "theorems": [
    "C41_interval",
    "C41_covers",
    "C41_inside",
    "C41_overlap_refuted",
    "C41_depth_refuted"
   ],
   "note": "Canonical references as in C22. Refuted: an insertion that starts inside and ends beyond is not covered; an article inserted after an amended paragraph is an error, and the text is not analysed at all."
  },
  {
   "property": "C42",
   "status": "proved",
   "theorems": [
    "C42_roundtrip",
    "C42_equal",
    "C42_exact",
    "C42_keys",
    "C42_default_refuted",
    "C42_nan_refuted",
    "C42_union_refuted",
    "C42_hun_law",
    "C42_act",
    "C42_act_exact",
    "C42_act_distinct",
    "C42_law",
    "C42_pages",
    "C42_article_refuted"
   ],
   "note": "Acts: made by the constructors, with paragraphs as the children of all articles and real dates; no NaN in quoted lines. Refuted: 0.0 where the default is 0 is read back as the integer 0; NaN; unions of members with the same kind of data are accepted in one order and then read back as the wrong class; an article that holds points is read back with paragraphs."
  },
  {
   "property": "C43",
   "status": "proved",
   "theorems": [
    "C43_results",
    "C43_schedules",
    "C43_failures",
    "C43_determined",
    "C43_order_refuted",
    "C43_step",
    "C43_step_error"
   ],
   "note": "Extractors are functions from objects to finite generators that may end in an error; processes pass objects unchanged. C43_order_refuted: one worker takes the objects from last to first."
  },
  {
   "property": "C44",
   "status": "proved",
   "theorems": [
    "C44_page",
    "C44_unique",
    "C44_kept",
    "C44_text",
    "C44_line",
    "C44_conflict",
    "C44_lost_refuted",
    "C44_empty_page_refuted",
    "C44_margin_refuted",
    "C44_fifth"
   ],
   "note": "Boxes have coordinates other than nan and -0.0 and some text. C44_lost_refuted, C44_empty_page_refuted, C44_margin_refuted are the findings."
  },
  {
   "property": "C45",
   "status": "proved",
   "theorems": [
    "C45_sections",
    "C45_unique",
    "C45_in_order",
    "C45_recognized",
    "C45_first_page_refuted"
   ],
   "note": "From pages of lines on. C45_first_page_refuted: the first page is processed twice, laws beginning on it are found twice."
  },
  {
   "property": "C46",
   "status": "proved",
   "theorems": [
    "C46_laws",
    "C46_found",
    "C46_blank_refuted",
    "C46_swallowed_refuted",
    "C46_error_refuted"
   ],
   "note": "C46_blank_refuted, C46_swallowed_refuted, C46_error_refuted are the findings."
  },
  {
   "property": "C47",
   "status": "proved",
   "theorems": [
    "C47_history",
    "C47_size",
    "C47_second_run",
    "C47_killed",
    "C47_no_directory",
    "C47_crash_refuted",
    "C47_init"
   ],
   "note": "gzip and json are functions with the laws of codec (CacheSpec.v): a whole file gives its data back and a part of one is an error. Paths are compared as strings. C47_crash_refuted is the finding."
  },
  {
   "property": "C48",
   "status": "proved",
   "theorems": [
    "C48_links",
    "C48_indent",
    "C48_indent_refuted",
    "C48_file",
    "C48_head",
    "C48_subtitle",
    "C48_only_intro_refuted"
   ],
   "note": "xml.etree.ElementTree is modelled: elements, _serialize_html and its escapes. C48_indent_refuted and C48_only_intro_refuted are the findings. Texts of tags and attributes are not part of what is shown."
  },
  {
   "property": "C49",
   "status": "proved",
   "theorems": [
    "C49_ids",
    "C49_unique",
    "C49_unnamed_refuted",
    "C49_targets",
    "C49_range_refuted"
   ],
   "note": "C49_unnamed_refuted and C49_range_refuted are the findings."
  },
  {
   "property": "C50",
   "status": "proved",
   "theorems": [
    "C50_wrap",
    "C50_in_order",
    "C50_all",
    "C50_lost_label_refuted",
    "C50_repeated_label_refuted",
    "C50_width_zero_refuted",
    "C50_only_intro_refuted",
    "C50_raw",
    "C50_fifth",
    "C50_words",
    "C50_trimmed"
   ],
   "note": "textwrap is modelled but for how its regular expression splits a text, which may be any way that loses nothing (splits in TxtSpec.v). The refuted theorems are the findings. C50_words: where texts are broken into lines. C50_trimmed: which lines can end with white space; its example shows one that does."
  },
  {
   "property": "C51",
   "status": "proved",
   "theorems": [
    "C51_ids",
    "C51_files",
    "C51_urls",
    "C51_url_refuted",
    "C51_download",
    "C51_issue_again",
    "C51_truncated_refuted"
   ],
   "note": "C51_url_refuted and C51_truncated_refuted are the findings; the network is a function from addresses."
  },
  {
   "property": "C52",
   "status": "proved",
   "theorems": [
    "C52_titles",
    "C52_errors"
   ],
   "note": ""
  },
  {
   "property": "C53",
   "status": "proved",
   "theorems": [
    "C53_no_article_missed",
    "C53_alignment_needed"
   ],
   "note": "C53_alignment_needed: a heading at another distance from the margin is taken as text."
  },
  {
   "property": "C54",
   "status": "proved",
   "theorems": [
    "C54_incremental",
    "C54_after_change",
    "C54_edited_refuted"
   ],
   "note": "C54_edited_refuted: stale abbreviations after an edit."
  },
  {
   "property": "C55",
   "status": "proved",
   "theorems": [
    "C55_articles",
    "C55_paragraphs",
    "C55_first_refuted"
   ],
   "note": "Structural amendments use the act body parser (C53). C55_first_refuted: first identifier unchecked."
  },
  {
   "property": "C56",
   "status": "proved",
   "theorems": [
    "C56_chained",
    "C56_act",
    "C56_text_amendments",
    "C56_repeals",
    "C56_order",
    "C56_parted",
    "C56_spans",
    "C56_subtitle_refuted"
   ],
   "note": "Refuted: a list of articles in an amendment with a subtitle is an error, while without a subtitle it is ignored."
  },
  {
   "property": "C57",
   "status": "proved",
   "theorems": [
    "C57_exact",
    "C57_days",
    "C57_next_day",
    "C57_month",
    "C57_words",
    "C57_every_reference",
    "C57_day_refuted"
   ],
   "note": "Refuted: the day of the month is not checked."
  },
  {
   "property": "C58",
   "status": "proved",
   "theorems": [
    "C58_act",
    "C58_place",
    "C58_block",
    "C58_subtitle",
    "C58_structural",
    "C58_repeal",
    "C58_title",
    "C58_abbreviation"
   ],
   "note": "The amended and inserted reference together: C41. Clauses without an act are an error."
  },
  {
   "property": "C59",
   "status": "proved",
   "theorems": [
    "C59_pages",
    "C59_all_events",
    "C59_bold",
    "C59_dropped_refuted"
   ],
   "note": "pdfminer's calls are the input. Code numbers are not negative and the font gives no empty text."
  },
  {
   "property": "C60",
   "status": "proved",
   "theorems": [
    "C60_ends",
    "C60_steps",
    "C60_workers",
    "C60_gazettes",
    "C60_named",
    "C60_text",
    "C60_others_refuted"
   ],
   "note": "The PDF's pages, the fixup list, the analyzer and downloads are arguments of the model; pickling between processes is taken as faithful. C60_others_refuted is a finding."
  },
  {
   "property": "C61",
   "status": "proved",
   "theorems": [
    "C61_issue",
    "C61_issue_errors",
    "C61_issue_printed",
    "C61_files",
    "C61_stdout",
    "C61_names",
    "C61_step",
    "C61_workers",
    "C61_json",
    "C61_single_act_refuted",
    "C61_workers_refuted",
    "C61_html_refuted",
    "C61_slash_refuted"
   ],
   "note": "argparse and the encoding of files are not modelled; what a failing output function leaves in the file is an oracle (wr_partial). The refuted theorems are the findings."
  },
  {
   "property": "C62",
   "status": "proved",
   "theorems": [
    "C62_sound",
    "C62_text",
    "C62_complete",
    "C62_errors",
    "C62_unedited",
    "C62_edited",
    "C62_opened",
    "C62_saved",
    "C62_session",
    "C62_last_line_refuted",
    "C62_emptied_refuted",
    "C62_context_refuted",
    "C62_broken_refuted"
   ],
   "note": "What is done in the editor is an argument of the model (any function of the text). The sorted keys of the written file and the re-import of modules are not modelled. The refuted theorems are the findings."
  },
  {
   "property": "C63",
   "status": "proved",
   "theorems": [
    "C63_places",
    "C63_references",
    "C63_semantic",
    "C63_abbreviations",
    "C63_sane",
    "C63_positions"
   ],
   "note": "PegModel.v is the grammar as tatsu 4.3.0 interprets it, with GramModel.v's converters."
  },
  {
   "property": "C64",
   "status": "proved",
   "theorems": [
    "C64_parses",
    "C64_total",
    "C64_total_refuted"
   ],
   "note": "The excluded texts are described by words they contain, so some texts that can be read are excluded too."
  },
  {
   "property": "C65",
   "status": "proved",
   "theorems": [
    "C65_ends",
    "C65_apart",
    "C65_apart_refuted",
    "C65_act",
    "C65_positions"
   ],
   "note": "Texts with ranges are left out of C65_apart as a whole, although most of them give references that do not overlap."
  },
  {
   "property": "C66",
   "status": "proved",
   "theorems": [
    "C66_html",
    "C66_grammar",
    "C66_overlap_refuted",
    "C66_reasons_refuted"
   ],
   "note": "C66_grammar composes the semantic parser, the modelled grammar and the HTML output."
  },
  {
   "property": "C67",
   "status": "proved",
   "theorems": [
    "C67_found",
    "C67_unique"
   ],
   "note": "Lists of identifiers inside one part, as in (1) és (2) bekezdése, are in C84. Words with digits, brackets, colons, dashes or abbreviations are left out of the description of sentences."
  },
  {
   "property": "C68",
   "status": "proved",
   "theorems": [
    "C68_found",
    "C68_unique",
    "C68_lost",
    "C68_impossible"
   ],
   "note": "Amendments of chapters and other divisions are in C85, and of subtitles, also together with articles, in C86. C68_lost and C68_impossible are findings: an amendment of a list that is not one range is not stored, and some sentences that replace and insert at once stop the analyzer."
  },
  {
   "property": "C69",
   "status": "proved",
   "theorems": [
    "C69_found",
    "C69_unique",
    "C69_apart"
   ],
   "note": "Structural repeals and quotes in quotes are left out."
  },
  {
   "property": "C70",
   "status": "proved",
   "theorems": [
    "C70_found",
    "C70_impossible",
    "C70_unique",
    "C70_apart"
   ],
   "note": "Numbers are written in digits or as one of the ordinals of the grammar."
  },
  {
   "property": "C71",
   "status": "proved",
   "theorems": [
    "C71_missed",
    "C71_noticed",
    "C71_changes",
    "C71_stored",
    "C71_complete_refuted"
   ],
   "note": "C71_complete_refuted: a sentence whose amendment is found by the block amendment parser but not stored as semantic data."
  },
  {
   "property": "C72",
   "status": "proved",
   "theorems": [
    "C72_act",
    "C72_printed",
    "C72_gap_refuted",
    "C72_block",
    "C72_block_sound",
    "C72_lead_refuted",
    "C72_bold_title_refuted"
   ],
   "note": "C72_gap_refuted, C72_lead_refuted, C72_bold_title_refuted: headings that are lost or misread."
  },
  {
   "property": "C73",
   "status": "proved",
   "theorems": [
    "C73_structure",
    "C73_blocks",
    "C73_ready",
    "C73_dates",
    "C73_gazette",
    "C73_written",
    "C73_all_written",
    "C73_identified",
    "C73_found",
    "C73_empty_refuted"
   ],
   "note": "The lines must have finite positions (C73_written) or single characters at their ends (C73_identified). C73_empty_refuted: an element without text."
  },
  {
   "property": "C74",
   "status": "proved",
   "theorems": [
    "C74_block",
    "C74_amended",
    "C74_read",
    "C74_unique",
    "C74_kept"
   ],
   "note": "The usual ways of writing sentences are those of C67-C71; laws with a sentence that is worth reading and is written in another way are not covered."
  },
  {
   "property": "C75",
   "status": "proved",
   "theorems": [
    "C75_reads",
    "C75_object",
    "C75_hun_law",
    "C75_class",
    "C75_unknown_name",
    "C75_order",
    "C75_name_ignored",
    "C75_collision",
    "C75_types_refuted",
    "C75_length_refuted",
    "C75_list_refuted"
   ],
   "note": "Refuted, and stated as such: that what is read is of the annotated types (C75_types_refuted), that tuples have the right length (C75_length_refuted), that only lists are read as lists (C75_list_refuted)."
  },
  {
   "property": "C76",
   "status": "proved",
   "theorems": [
    "C76_pages",
    "C76_section",
    "C76_laws",
    "C76_acts",
    "C76_files"
   ],
   "note": "C76_files needs acts of different names without a slash; otherwise one file overwrites another (C61_workers_refuted) or is put elsewhere (C61_slash_refuted). The net, pdfminer and json.dump are parameters."
  },
  {
   "property": "C77",
   "status": "proved",
   "theorems": [
    "C77_applied",
    "C77_fitting",
    "C77_unlisted",
    "C77_possible",
    "C77_identifiers",
    "C77_cut",
    "C77_uncut_refuted"
   ],
   "note": "The entries are transcribed one by one. C77_uncut_refuted: the line made for article 3:240/A of act 2013. évi CXXXV. cannot be cut behind its number, so the article is not parsed."
  },
  {
   "property": "C78",
   "status": "proved",
   "theorems": [
    "C78_act",
    "C78_law",
    "C78_pages",
    "C78_file",
    "C78_cache",
    "C78_files",
    "C78_read",
    "C78_distinct"
   ],
   "note": "The text that json.dump makes of the data is a parameter here."
  },
  {
   "property": "C79",
   "status": "proved",
   "theorems": [
    "C79_texts",
    "C79_paths",
    "C79_paths_refuted",
    "C79_issue",
    "C79_csv",
    "C79_csv_refuted",
    "C79_all"
   ],
   "note": "html.parser, windows-1250 and the server are parameters. C79_csv_refuted: quotes in titles with a comma are not doubled; C79_paths_refuted: the end of an element ends all elements of that name."
  },
  {
   "property": "C80",
   "status": "proved",
   "theorems": [
    "C80_written",
    "C80_cache",
    "C80_read",
    "C80_meaning",
    "C80_repeated",
    "C80_roundtrip",
    "C80_cache_roundtrip",
    "C80_cache_roundtrip_refuted",
    "C80_cut",
    "C80_cut_refuted",
    "C80_distinct",
    "C80_files",
    "C80_act"
   ],
   "note": "repr and float of numbers are parameters with float_law. C80_cache_roundtrip_refuted: two halves of a surrogate pair side by side come back from the cache as one character; C80_cut_refuted: the beginning of a number is a number."
  },
  {
   "property": "C81",
   "status": "proved",
   "theorems": [
    "C81_struct",
    "C81_txt",
    "C81_read_txt",
    "C81_read_html",
    "C81_txt_files",
    "C81_html_files",
    "C81_quote_refuted",
    "C81_empty_refuted"
   ],
   "note": "Refuted without the conditions: a law that quotes an empty line only (C81_quote_refuted) and one that amends with an empty paragraph (C81_empty_refuted) are read, but neither printed nor made into a page."
  },
  {
   "property": "C82",
   "status": "proved",
   "theorems": [
    "C82_run",
    "C82_again",
    "C82_printed"
   ],
   "note": "One process (several: C83). Room for the cache and the output on the disk (room), no -0.0 margin (clean_pages). The net, the miner, gzip+json (codec) and the text splitting are parameters."
  },
  {
   "property": "C83",
   "status": "proved",
   "theorems": [
    "C83_workers",
    "C83_step",
    "C83_ends",
    "C83_results",
    "C83_alone",
    "C83_twice_refuted",
    "C83_silent_refuted"
   ],
   "note": "Different issues, and no directory or file in the way of the cache (ready). One worker per issue; a pool of fewer processes allows fewer interleavings. makedirs is one step, and reading a file is one step. C83_twice_refuted, C83_silent_refuted: the same issue given twice."
  },
  {
   "property": "C84",
   "status": "proved",
   "theorems": [
    "C84_found",
    "C84_unique",
    "C84_covers",
    "C84_joined",
    "C84_count"
   ],
   "note": "A list of alphabetic subpoints has one element (identifiers like ab) and a) cannot be compared, which is an error). Words with digits, brackets, colons, dashes or abbreviations are left out, as in C67. C84_joined_ex: (1), (5)–(6), (2) és (3) gives the overlapping (1)–(2) and (5)–(6), then (3)."
  },
  {
   "property": "C85",
   "status": "proved",
   "theorems": [
    "C85_found",
    "C85_unique",
    "C85_apart"
   ],
   "note": "The number of the division is at least 1 and its text has none of §, bekezdés, pont; divisions other than subtitles, and subtitles that are inserted, must not have the word alcíme in their endings, because a subtitle named by its title would be read. Subtitles at places before or after an article, and those named by their titles, are in C86."
  },
  {
   "property": "C86",
   "status": "proved",
   "theorems": [
    "C86_found",
    "C86_unique",
    "C86_apart"
   ],
   "note": "Subtitles named by titles that are not in quotes, or that have quotes in them, are left out, and so are several subtitles at once; the endings of a chapter named as the place, and of articles that are amended with a subtitle, do not have the word alcíme."
  },
  {
   "property": "C87",
   "status": "proved",
   "theorems": [
    "C87_found",
    "C87_unique",
    "C87_apart",
    "C87_lost",
    "C87_lost_at"
   ],
   "note": "What is inserted or replaced is one reference each. What comes after a division with a number does not have the words követő and megelőző, and, unless the division is a subtitle, not the word alcíme. Places named by titles that are not in quotes, or that have quotes in them, are left out. C87_lost and C87_lost_at compare places of the same length, because the positions of what comes after the place depend on the length."
  }
 ]
}
