{
 "claims": [
  {
   "property": "C01",
   "status": "proved",
   "theorems": [
    "unescape_escape",
    "unescape_escape_iff",
    "unescape_fixpoint"
   ],
   "note": "escape then replace_escaped, exact description for every string"
  },
  {
   "property": "C02",
   "status": "proved",
   "theorems": [
    "escaped_text_decodes",
    "escaped_text_no_markup"
   ],
   "note": ""
  },
  {
   "property": "C03",
   "status": "proved",
   "theorems": [
    "escape_owned_agrees"
   ],
   "note": ""
  },
  {
   "property": "C04",
   "status": "proved",
   "theorems": [
    "written_tree_reads_back",
    "written_document_reads_back",
    "written_calls_read_back"
   ],
   "note": "tokenizer of quick-xml modelled by its documented behaviour (trusted)"
  },
  {
   "property": "C05",
   "status": "proved",
   "theorems": [
    "writer_ok_iff",
    "writer_fails_at_first_overclose",
    "writer_output_only_grows"
   ],
   "note": ""
  },
  {
   "property": "C06",
   "status": "proved",
   "theorems": [
    "writer_bytes"
   ],
   "note": ""
  },
  {
   "property": "C07",
   "status": "proved",
   "theorems": [
    "given_texts_read_back",
    "given_text_comes_back_iff",
    "add_text_stores",
    "entity_text_changes_refuted"
   ],
   "note": ""
  },
  {
   "property": "C08",
   "status": "proved",
   "theorems": [
    "rebuilt_text_legal_iff",
    "rebuilt_text_same_iff",
    "stored_texts_read_back",
    "rebuilding_what_was_read",
    "read_text_breaks_document_refuted"
   ],
   "note": ""
  },
  {
   "property": "C09",
   "status": "proved",
   "theorems": [
    "answers_well_bracketed",
    "end_of_document_reached",
    "end_of_document_forever",
    "iterator_stops"
   ],
   "note": ""
  },
  {
   "property": "C10",
   "status": "proved",
   "theorems": [
    "character_data_is_one_event",
    "character_data_not_split",
    "comment_splits_character_data_refuted"
   ],
   "note": "merging holds between tags; a comment or CDATA section separates events"
  },
  {
   "property": "C11",
   "status": "proved",
   "theorems": [
    "document_read_returns",
    "header_read_returns",
    "comments_read_returns",
    "paragraph_read_stays_inside",
    "table_read_stays_inside"
   ],
   "note": ""
  },
  {
   "property": "C12",
   "status": "proved",
   "theorems": [
    "cut_document_not_accepted",
    "document_prefix_never_fails",
    "header_prefix_never_fails",
    "comments_prefix_never_fails",
    "cut_document_hangs",
    "cut_document_reported_refuted",
    "malformed_reported_refuted"
   ],
   "note": "the claim as first stated is false; what is true instead is proved"
  },
  {
   "property": "C13",
   "status": "proved",
   "theorems": [
    "document_read_no_panic",
    "header_read_no_panic",
    "comments_read_no_panic",
    "read_never_panics_refuted",
    "read_width_panics_refuted",
    "read_points_panics_refuted",
    "read_comment_panics_refuted",
    "read_para_panics_refuted"
   ],
   "note": ""
  },
  {
   "property": "C14",
   "status": "proved",
   "theorems": [
    "enums_survive",
    "relative_from_v_survives_iff",
    "relative_from_v_refuted",
    "character_spacing_survives_iff"
   ],
   "note": "every table of types/*.rs; the failing value is named"
  },
  {
   "property": "C15",
   "status": "proved",
   "theorems": [
    "unknown_enum_values",
    "enum_aliases"
   ],
   "note": ""
  },
  {
   "property": "C16",
   "status": "proved",
   "theorems": [
    "ids_fresh_wrapping",
    "ids_fresh_checked",
    "para_ids_limit",
    "ids_fresh_across_reset_refuted"
   ],
   "note": ""
  },
  {
   "property": "C17",
   "status": "proved",
   "theorems": [
    "concurrent_ids_fresh_without_overlap",
    "concurrent_ids_fresh_refuted",
    "concurrent_ids_same_thread_refuted",
    "para_ids_fresh_per_thread",
    "para_ids_fresh_across_threads_refuted"
   ],
   "note": "false as stated in general; refuted and the exact sufficient condition proved"
  },
  {
   "property": "C18",
   "status": "proved",
   "theorems": [
    "prepared_ids_unique",
    "prepared_ids_unique_everywhere",
    "prepared_ids_footnote_refuted"
   ],
   "note": "unique for all well-typed documents outside footnote references and text boxes; the counterexample inside a footnote reference is prepared_ids_footnote_refuted"
  },
  {
   "property": "C19",
   "status": "proved",
   "theorems": [
    "unique_ids_kept",
    "prepared_ids_renewed"
   ],
   "note": ""
  },
  {
   "property": "C20",
   "status": "proved",
   "theorems": [
    "free_id_search",
    "preparation_succeeds"
   ],
   "note": ""
  },
  {
   "property": "C21",
   "status": "proved",
   "theorems": [
    "document_paragraph_ids",
    "document_ids_distinct",
    "document_ids_distinct_iff",
    "new_paragraph_ids_refuted"
   ],
   "note": "uniqueness holds exactly outside the clash described; refuted in general"
  },
  {
   "property": "C22",
   "status": "proved",
   "theorems": [
    "tree_pictures_resolve",
    "packaging_keeps_tree",
    "pictures_resolve",
    "comment_picture_lost_refuted"
   ],
   "note": "for whole documents; pictures inside comments and footnotes are the proved exception"
  },
  {
   "property": "C23",
   "status": "proved",
   "theorems": [
    "tree_pictures_resolve",
    "pictures_resolve"
   ],
   "note": ""
  },
  {
   "property": "C24",
   "status": "proved",
   "theorems": [
    "tree_pictures_resolve",
    "pictures_resolve"
   ],
   "note": ""
  },
  {
   "property": "C25",
   "status": "proved",
   "theorems": [
    "streaming_writes_iff",
    "buffering_writes_iff",
    "counters_after_writing",
    "streamed_same_but_ids",
    "streamed_equal",
    "streamed_equal_refuted"
   ],
   "note": "The renderer of every part is modelled; custom items are opaque texts."
  },
  {
   "property": "C26",
   "status": "proved",
   "theorems": [
    "headers_shown",
    "headers_held",
    "headers_swapped_refuted"
   ],
   "note": ""
  },
  {
   "property": "C27",
   "status": "proved",
   "theorems": [
    "relationship_ids_unique",
    "custom_item_and_footnote_refuted",
    "picture_id_clash_refuted"
   ],
   "note": ""
  },
  {
   "property": "C28",
   "status": "proved",
   "theorems": [
    "content_types_right",
    "content_types_once",
    "custom_item_type_refuted",
    "footnotes_type_refuted"
   ],
   "note": ""
  },
  {
   "property": "C29",
   "status": "proved",
   "theorems": [
    "entry_names_unique"
   ],
   "note": ""
  },
  {
   "property": "C30",
   "status": "proved",
   "theorems": [
    "numbering_declared",
    "row_added_later_refuted",
    "control_in_cell_refuted",
    "control_in_paragraph_refuted",
    "control_in_link_refuted",
    "before_contents_refuted",
    "after_contents_refuted",
    "document_replaced_refuted"
   ],
   "note": ""
  },
  {
   "property": "C31",
   "status": "proved",
   "theorems": [
    "cells_have_blocks",
    "cell_ends_in_paragraph_iff",
    "cells_end_in_paragraph",
    "cell_ending_refuted"
   ],
   "note": ""
  },
  {
   "property": "C32",
   "status": "proved",
   "theorems": [
    "comments_collected_once",
    "comments_collected_exactly",
    "reply_marks",
    "comment_in_insertion_lost_refuted",
    "comment_in_section_lost_refuted",
    "long_comment_doubled_refuted"
   ],
   "note": ""
  },
  {
   "property": "C33",
   "status": "proved",
   "theorems": [
    "footnotes_collected",
    "footnotes_collected_by_method",
    "header_footnote_lost_refuted"
   ],
   "note": ""
  },
  {
   "property": "C34",
   "status": "proved",
   "theorems": [
    "toc_instruction_survives",
    "toc_instruction_survives_reading",
    "toc_name_with_blank_refuted",
    "toc_style_with_comma_refuted",
    "toc_last_switch_lost_refuted",
    "pageref_survives",
    "pageref_with_field_name_refuted",
    "tc_switches_survive"
   ],
   "note": ""
  },
  {
   "property": "C35",
   "status": "proved",
   "theorems": [
    "toc_expansion",
    "toc_expansion_succeeds",
    "heading_level",
    "no_heading_level",
    "toc_nested_heading_refuted",
    "toc_key_fresh_refuted",
    "toc_single_entry_refuted",
    "toc_own_styles_only_refuted"
   ],
   "note": ""
  },
  {
   "property": "C36",
   "status": "proved",
   "theorems": [
    "extraction_terminates",
    "parts_extracted",
    "doubled_quotes_lose_first_character",
    "doubled_quotes_refuted",
    "doubled_quotes_panic_refuted",
    "extraction_never_panics_on_ascii"
   ],
   "note": "holds for ordinary quotes, refuted for the doubled quotes the code caters for"
  },
  {
   "property": "C37",
   "status": "proved",
   "theorems": [
    "run_formatting_read_back",
    "run_formatting_survives_iff",
    "run_formatting_lost_refuted"
   ],
   "note": ""
  },
  {
   "property": "C38",
   "status": "proved",
   "theorems": [
    "paragraph_formatting_read_back",
    "paragraph_formatting_survives_iff",
    "paragraph_formatting_lost_refuted"
   ],
   "note": ""
  },
  {
   "property": "C39",
   "status": "proved",
   "theorems": [
    "document_read_back",
    "header_read_back",
    "comments_read_back",
    "document_comes_back",
    "everything_read_back"
   ],
   "note": "tables of contents, sections within the body, empty cells and nodes whose written form ends an outer node early are outside the fragment (predicate kept)"
  },
  {
   "property": "C40",
   "status": "proved",
   "theorems": [
    "px_overflow_bound",
    "px_round_trip",
    "px_round_trip_wrapping",
    "px_truncation",
    "rotation_never_overflows"
   ],
   "note": ""
  },
  {
   "property": "C41",
   "status": "proved",
   "theorems": [
    "outline_level_clamped"
   ],
   "note": ""
  },
  {
   "property": "C42",
   "status": "proved",
   "theorems": [
    "every_spelling_finds_the_entry",
    "only_spelled_entries_are_found",
    "byte_order_mark_removed",
    "backslash_entries_not_found_refuted"
   ],
   "note": ""
  },
  {
   "property": "C43",
   "status": "proved",
   "theorems": [
    "comment_threads_read",
    "no_marks_no_threads",
    "comment_threads_flat",
    "comment_threads_flat_refuted",
    "comment_threads_survive",
    "comment_texts_stored",
    "comment_in_hyperlink_emptied_refuted",
    "last_mark_counts"
   ],
   "note": ""
  },
  {
   "property": "C44",
   "status": "proved",
   "theorems": [
    "hyperlinks_collected",
    "hyperlink_in_section_lost_refuted"
   ],
   "note": ""
  },
  {
   "property": "C45",
   "status": "proved",
   "theorems": [
    "header_targets_exist",
    "header_replaced_refuted"
   ],
   "note": ""
  },
  {
   "property": "C46",
   "status": "proved",
   "theorems": [
    "document_builds_iff",
    "document_takes",
    "part_builds_iff",
    "comments_build_iff",
    "footnotes_build_iff",
    "build_panics_refuted"
   ],
   "note": ""
  },
  {
   "property": "C47",
   "status": "proved",
   "theorems": [
    "changes_numbered_in_order",
    "change_ids_distinct",
    "change_ids_across_kinds_refuted"
   ],
   "note": ""
  },
  {
   "property": "C48",
   "status": "proved",
   "theorems": [
    "document_vocabulary",
    "part_vocabulary"
   ],
   "note": ""
  },
  {
   "property": "C49",
   "status": "proved",
   "theorems": [
    "document_well_formed_iff",
    "document_readable_iff",
    "part_well_formed_iff",
    "comments_well_formed_iff",
    "footnotes_well_formed_iff",
    "escaped_is_legal",
    "bookmark_name_breaks_document_refuted",
    "comment_author_changes_meaning_refuted"
   ],
   "note": ""
  },
  {
   "property": "C50",
   "status": "proved",
   "theorems": [
    "safe_setters_iff"
   ],
   "note": ""
  },
  {
   "property": "C51",
   "status": "proved",
   "theorems": [
    "styles_read_back",
    "style_comes_back",
    "style_comes_back_iff",
    "style_found_again",
    "own_normal_found_refuted",
    "styles_stay_same_refuted",
    "style_priority_lost_refuted"
   ],
   "note": "for table styles only the direction that they come back if they survive"
  },
  {
   "property": "C52",
   "status": "proved",
   "theorems": [
    "numberings_read_back",
    "abstract_comes_back_iff",
    "num_comes_back_iff",
    "numbering_refers_same",
    "numberings_stay_same_refuted",
    "list_kind_lost_refuted"
   ],
   "note": ""
  },
  {
   "property": "C53",
   "status": "proved",
   "theorems": [
    "style_ids_declared",
    "style_ids_unique_iff",
    "numbering_ids_declared",
    "numbering_ids_unique_iff",
    "numbering_refs_declared_iff",
    "ids_unique_after_reading_refuted"
   ],
   "note": ""
  },
  {
   "property": "C54",
   "status": "proved",
   "theorems": [
    "settings_read_back",
    "settings_come_back_iff",
    "doc_id_braces_lost_refuted"
   ],
   "note": ""
  },
  {
   "property": "C55",
   "status": "proved",
   "theorems": [
    "settings_read_ends",
    "numberings_read_returns",
    "styles_read_returns",
    "styles_without_end",
    "unclosed_styles_not_accepted",
    "other_root_reported_refuted",
    "malformed_numbering_reported_refuted",
    "malformed_styles_reported_refuted",
    "styles_read_no_panic",
    "numberings_read_no_panic",
    "style_name_panics_refuted",
    "numbering_panics_refuted"
   ],
   "note": ""
  },
  {
   "property": "C56",
   "status": "proved",
   "theorems": [
    "styles_well_formed_iff",
    "numberings_well_formed_iff",
    "settings_well_formed_iff",
    "level_text_breaks_part_refuted",
    "doc_var_breaks_part_refuted"
   ],
   "note": ""
  },
  {
   "property": "C57",
   "status": "proved",
   "theorems": [
    "saved_archive_opens",
    "ampersand_in_property_refuted"
   ],
   "note": ""
  },
  {
   "property": "C58",
   "status": "proved",
   "theorems": [
    "body_comes_back",
    "texts_come_back",
    "surviving_body_comes_back",
    "other_parts_come_back"
   ],
   "note": ""
  },
  {
   "property": "C59",
   "status": "proved",
   "theorems": [
    "headers_come_back",
    "headers_come_back_swapped_refuted"
   ],
   "note": ""
  },
  {
   "property": "C60",
   "status": "proved",
   "theorems": [
    "comments_come_back"
   ],
   "note": ""
  },
  {
   "property": "C61",
   "status": "proved",
   "theorems": [
    "custom_properties_come_back"
   ],
   "note": ""
  },
  {
   "property": "C62",
   "status": "proved",
   "theorems": [
    "body_images_come_back",
    "header_images_come_back",
    "marked_image_refuted",
    "undecodable_image_refuted",
    "header_images_ambiguous_refuted",
    "moved_picture_refuted",
    "odd_picture_id_refuted"
   ],
   "note": ""
  },
  {
   "property": "C63",
   "status": "proved",
   "theorems": [
    "links_come_back"
   ],
   "note": ""
  },
  {
   "property": "C64",
   "status": "proved",
   "theorems": [
    "only_named_files_matter",
    "other_file_does_not_matter",
    "entry_order_does_not_matter",
    "repeated_name_refuted"
   ],
   "note": ""
  },
  {
   "property": "C65",
   "status": "proved",
   "theorems": [
    "opening_needs_the_named_parts",
    "missing_part_is_reported",
    "optional_parts_may_be_missing"
   ],
   "note": ""
  },
  {
   "property": "C66",
   "status": "proved",
   "theorems": [
    "archive_read_returns",
    "archive_read_no_panic",
    "other_rels_root_refuted",
    "other_styles_root_refuted",
    "cut_rels_refuted",
    "short_content_type_refuted",
    "short_extended_comment_refuted"
   ],
   "note": ""
  },
  {
   "property": "C67",
   "status": "proved",
   "theorems": [
    "every_file_is_xml",
    "every_file_can_be_read",
    "ampersand_in_title_refuted"
   ],
   "note": ""
  },
  {
   "property": "C68",
   "status": "proved",
   "theorems": [
    "item_is_kept",
    "item_is_not_kept",
    "item_text_is_trimmed",
    "stored_item_is_kept",
    "plain_item_is_unchanged",
    "item_file_is",
    "item_file_says",
    "ampersand_in_item_refuted",
    "escaped_tag_refuted",
    "mixed_content_refuted",
    "not_one_root_refuted"
   ],
   "note": ""
  },
  {
   "property": "C69",
   "status": "proved",
   "theorems": [
    "core_properties_say",
    "custom_properties_say",
    "custom_numbers_differ",
    "unescaped_date_refuted"
   ],
   "note": ""
  },
  {
   "property": "C70",
   "status": "proved",
   "theorems": [
    "opening_gives_typed_tree",
    "opened_is_prepared_iff",
    "opened_is_written",
    "shape_is_never_written",
    "resaving_keeps_the_tree",
    "resaved_header_shown_iff",
    "library_headers_survive",
    "resaved_pictures_are_empty",
    "resaved_links_lead_nowhere",
    "resaved_numberings_unlisted",
    "resaved_extras_dropped",
    "media_come_from_pictures",
    "resaving_keeps_headers_refuted"
   ],
   "note": ""
  },
  {
   "property": "C71",
   "status": "proved",
   "theorems": [
    "web_extension_says",
    "web_extension_is_in_the_archive",
    "web_property_value_iff",
    "web_property_value_refuted"
   ],
   "note": ""
  },
  {
   "property": "C72",
   "status": "proved",
   "theorems": [
    "main_document_is_first_named",
    "custom_file_is_first_named",
    "part_relationships_found_iff",
    "relationships_are_read",
    "least_id_is_first",
    "target_leads_to_file",
    "hyperlink_target_is_kept",
    "step_target_finds_nothing",
    "opened_parts_are_what_files_say",
    "steps_are_resolved_refuted",
    "relationships_found_refuted"
   ],
   "note": ""
  },
  {
   "property": "C73",
   "status": "proved",
   "theorems": [
    "saving_goes_on",
    "saving_is_determined",
    "saving_settles",
    "saving_settles_at_once",
    "saving_stands_still",
    "saving_stands_still_at_once",
    "saving_grows",
    "saving_is_bounded_refuted",
    "settles_at_once_refuted"
   ],
   "note": "About the document part: what other parts hold, such as the texts of comments and the bytes of images, is the subject of C70 for one turn. The claims that the document stops growing and that one turn is enough are refuted."
  },
  {
   "property": "C74",
   "status": "proved",
   "theorems": [
    "json_text_reads_back",
    "json_text_has_document",
    "document_json_same_iff",
    "comments_json_same_iff",
    "document_json_shows",
    "document_json_texts",
    "opened_document_json_texts",
    "json_tells_all_refuted",
    "json_has_footnotes_refuted",
    "json_texts_given_refuted"
   ],
   "note": "About the JSON of the document tree and of the comments; of text boxes only the contents are in the model, of shapes nothing. The claims that the JSON tells all documents apart, that it has the footnotes and that it shows texts as they were given before saving are refuted."
  },
  {
   "property": "C75",
   "status": "proved",
   "theorems": [
    "document_json_has_declared_type",
    "comments_json_has_declared_type",
    "picture_json_declared_refuted",
    "paragraph_children_declared_refuted",
    "row_json_declared_refuted"
   ],
   "note": "The declarations are transcribed by a program from docx-wasm/js/json. The claims that all pictures, all children of paragraphs and all rows have declared types are refuted."
  },
  {
   "property": "C76",
   "status": "proved",
   "theorems": [
    "run_setters_do_what_they_say",
    "font_setters_do_what_they_say",
    "spacing_setters_do_what_they_say",
    "paragraph_setters_do_what_they_say",
    "table_setters_do_what_they_say",
    "row_setters_do_what_they_say",
    "cell_setters_do_what_they_say",
    "last_setter_wins",
    "one_paragraph_border_changes_alone_refuted",
    "one_cell_border_changes_alone_refuted",
    "strike_calls_commute_refuted",
    "theme_color_in_json_refuted",
    "style_shown_as_given_refuted"
   ],
   "note": "Refuted: that setting one border of a paragraph or cell leaves the others alone, that strike calls commute, that theme colors are in the JSON, and that style names are always shown as given."
  },
  {
   "property": "C77",
   "status": "proved",
   "theorems": [
    "document_things_alike",
    "part_things_alike",
    "properties_alike",
    "section_alike",
    "empty_cell_alike_refuted",
    "page_number_alike_refuted",
    "complex_script_bold_alike_refuted",
    "frame_space_alike_refuted",
    "indent_alike_refuted",
    "size_alike_refuted"
   ],
   "note": "Refuted for empty cells, page numbers, complex-script switches, spaces of frames, indents without a left side and sizes from 2^32 on. Tabs, header references and the exact text of field codes are not compared."
  },
  {
   "property": "C78",
   "status": "proved",
   "theorems": [
    "styles_alike",
    "numberings_alike",
    "settings_alike",
    "comments_alike",
    "table_property_alike_refuted",
    "style_link_alike_refuted",
    "start_alike_refuted"
   ],
   "note": "Refuted for table properties of styles that are not of tables, links of abstract numberings to styles, and starts from 2^32 on. The properties compared are those of C77."
  },
  {
   "property": "C79",
   "status": "proved",
   "theorems": [
    "style_setters_do_what_they_say",
    "styles_setters_do_what_they_say",
    "level_setters_do_what_they_say",
    "numbering_setters_do_what_they_say",
    "settings_setters_do_what_they_say",
    "last_style_setter_wins",
    "last_settings_setter_wins",
    "added_in_order",
    "next_like_other_links_refuted",
    "added_style_replaces_refuted"
   ],
   "note": "What run, paragraph and table setters say is the specification of C76."
  },
  {
   "property": "C80",
   "status": "proved",
   "theorems": [
    "section_setters_do_what_they_say",
    "page_setters_do_what_they_say",
    "picture_setters_do_what_they_say",
    "border_setters_do_what_they_say",
    "value_setters_do_what_they_say",
    "last_header_wins",
    "other_slots_kept",
    "title_page",
    "last_picture_setter_wins",
    "image_kept",
    "landscape_exchanges_refuted",
    "offset_floats_refuted",
    "first_header_is_shown_refuted"
   ],
   "note": ""
  },
  {
   "property": "C81",
   "status": "proved",
   "theorems": [
    "toc_styles_added",
    "toc_levels_have_styles",
    "toc_styles_added_once",
    "toc_style_comes_back",
    "toc_style_ids_distinct_refuted",
    "toc_in_cell_gets_styles_refuted"
   ],
   "note": ""
  },
  {
   "property": "C82",
   "status": "proved",
   "theorems": [
    "base64_reads_back",
    "opened_json_tells",
    "opened_json_tells_one",
    "opened_json_same_iff",
    "image_without_preview_told"
   ],
   "note": "The other members of the JSON are any values."
  },
  {
   "property": "C83",
   "status": "proved",
   "theorems": [
    "styles_json_has_declared_type",
    "numberings_json_has_declared_type",
    "settings_json_has_declared_type",
    "opened_json_has_declared_type",
    "core_json_has_declared_type_iff",
    "rels_json_declared_refuted",
    "unsupported_style_declared_refuted"
   ],
   "note": "Two declarations are wrong of the code (relationships, revision) and are refuted as such."
  },
  {
   "property": "C84",
   "status": "proved",
   "theorems": [
    "rels_json_same_iff",
    "document_rels_json_same_iff",
    "core_json_same_iff",
    "content_types_json_same_iff",
    "package_json_tells"
   ],
   "note": "Custom properties are in an order of the hash map and are left out."
  }
 ]
}