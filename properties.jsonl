{"id": "C01", "title": "Escaping is inverted by unescaping", "statement": "For every string without newline or carriage return, unescaping the escaped string gives the string back; for an arbitrary string the only differences are that each newline comes back as the five bytes &#xA; and each carriage return is gone.", "quantifier": "all byte strings", "why_tests_cant": "the interplay of the seven replacement patterns is only exhausted by induction over the string; sampled strings miss overlapping entity prefixes", "anchors": ["docx-core/src/escape/mod.rs:escape", "docx-core/src/escape/mod.rs:replace_escaped"]}
{"id": "C02", "title": "Escaped text can never be markup", "statement": "The escaped form of any string contains none of < > \" ' newline or carriage return, every & in it begins one of the emitted entities, and an XML processor decoding it recovers exactly the original string without its carriage returns.", "quantifier": "all byte strings", "why_tests_cant": "absence of an injection is a claim about all inputs", "anchors": ["docx-core/src/escape/mod.rs:escape", "docx-core/src/documents/elements/text.rs:Text::new"]}
{"id": "C03", "title": "The allocation-free escape path agrees with the plain one", "statement": "For every string the owned variant of escaping returns exactly what plain escaping returns, although it returns the input unchanged when it finds no special byte.", "quantifier": "all byte strings", "why_tests_cant": "the fast path and the slow path must agree on every input", "anchors": ["docx-core/src/escape/mod.rs:escape_owned"]}
{"id": "C04", "title": "XML written for any element tree parses back to that tree", "statement": "For every finite tree of elements with legal names, and every attribute value and text already in escaped form, the bytes produced by the XML writer are parsed back by the XML reader as exactly the same nested sequence of start, text and end events with the decoded attribute values and texts, for any depth and breadth, including childless elements which are written in short form.", "quantifier": "all trees, names, attribute lists and texts", "why_tests_cant": "nesting depth, empty elements and adjacent text are unbounded", "anchors": ["docx-core/src/xml/writer.rs:EventWriter::write", "docx-core/src/reader/xml_parser.rs:EventReader"]}
{"id": "C05", "title": "The writer reports an error exactly on unbalanced close", "statement": "A sequence of writer calls fails if and only if some prefix of it closes more elements than it has opened, and then the failing call is the first such close; the bytes written so far are a prefix of what a correct continuation would have produced.", "quantifier": "all sequences of writer calls", "why_tests_cant": "histories of any length", "anchors": ["docx-core/src/xml/writer.rs:EventWriter::write"]}
{"id": "C06", "title": "Every close is matched with its own open", "statement": "In the bytes produced from any sequence of successful writer calls, each close tag carries the name given to the most recent unclosed open call, even though the writer keeps all the names in one flat buffer.", "quantifier": "all sequences of writer calls", "why_tests_cant": "the shared name buffer is truncated and regrown arbitrarily", "anchors": ["docx-core/src/xml/writer.rs:ElementState", "docx-core/src/xml/writer.rs:element_names"]}
{"id": "C07", "title": "Text added to a run survives build and read", "statement": "The texts given to runs of a document (plain or deleted), built and read back, come back in the same order, each without its line ends and with the seven character sequences that look like an entity replaced, and empty ones left out. So a text comes back as given if and only if it is not empty, has no carriage return or newline and contains none of those sequences; \"&lt;\" comes back as \"<\".", "quantifier": "all documents whose strings can be read and whose nodes stand where they can be read back, all byte strings as texts", "why_tests_cant": "the reader decodes twice: the strings that break are a language, not a list", "anchors": ["docx-core/src/documents/elements/run.rs:Run::add_text", "docx-core/src/documents/elements/text.rs", "docx-core/src/reader/run.rs", "docx-core/src/escape/mod.rs"]}
{"id": "C08", "title": "Text that was read can be built again", "statement": "A text that was read is stored unescaped. Built again it is legal XML if and only if it has no < and every & in it begins a reference that can be resolved, and it then means the same text if and only if it has no & and no line end. So a document whose text comes back when built and read need not be XML when it is built again: \"a < b & c\" breaks it.", "quantifier": "all texts in a document that is read", "why_tests_cant": "the set of texts that corrupt the output is infinite", "anchors": ["docx-core/src/reader/run.rs", "docx-core/src/documents/elements/text.rs:Text::build_to", "docx-core/src/documents/elements/run.rs:add_text_without_escape"]}
{"id": "C09", "title": "Event reader delivers a well-bracketed stream and then end-of-document forever", "statement": "For every byte input, the start and end events delivered by the XML event reader before end-of-document or an error form a prefix of a well-bracketed sequence; once end-of-document has been delivered every further request delivers end-of-document again, while the iterator interface stops.", "quantifier": "all byte inputs and numbers of requests", "why_tests_cant": "all inputs, including malformed ones", "anchors": ["docx-core/src/reader/xml_parser.rs:EventReader::next_event", "docx-core/src/reader/xml_parser.rs:Iterator for EventReader"]}
{"id": "C10", "title": "Adjacent character data is delivered as one event", "statement": "However text, character references and entity references alternate in the input, they are delivered as one character event whose content is the concatenation of the decoded pieces, classified as whitespace exactly if it consists of blanks, tabs, newlines and carriage returns only.", "quantifier": "all alternations of text and references", "why_tests_cant": "unbounded alternation", "anchors": ["docx-core/src/reader/xml_parser.rs:EventReader::read_text_event"]}
{"id": "C11", "title": "Reading a complete document terminates", "statement": "Reading a document, header, footer or comments part from any text that the XML reader accepts without error and that closes every element it opens returns: with a value, an error or a panic, never an endless loop. A paragraph or table reader started inside such a text never reads past the end of the element that encloses it.", "quantifier": "all texts (all event streams)", "why_tests_cant": "termination over all inputs", "anchors": ["docx-core/src/reader/run.rs", "docx-core/src/reader/paragraph.rs", "docx-core/src/reader/table.rs", "docx-core/src/reader/ignore.rs", "docx-core/src/reader/document.rs"]}
{"id": "C12", "title": "Reading a truncated document is reported as an error", "statement": "A document cut inside a paragraph or a table of its body is never accepted as if it were complete. It is not reported as an error either: reading any beginning of a stream that reads well never ends in an error or a panic; it gives the first blocks if cut between blocks, and it never returns if cut inside a paragraph or table. Nor is XML that is not well-formed always reported: an error inside paragraph properties makes the call hang.", "quantifier": "all event streams", "why_tests_cant": "non-termination cannot be observed by a test", "anchors": ["docx-core/src/reader/run.rs", "docx-core/src/reader/paragraph.rs", "docx-core/src/reader/ignore.rs"]}
{"id": "C13", "title": "Reading never panics", "statement": "Reading a document, header, footer or comments part never panics if every start tag is sound (elements whose first attribute is taken unchecked have one, widths are numbers, lengths in points fit 32 bits after multiplication by twenty, a comment has an id) and the paragraph id counter does not run out. Without these it does panic: each of the nine elements of the first kind without attributes, and each of the nine width elements with a width that is no number, makes reading panic at some place whatever follows.", "quantifier": "all event streams and counter values", "why_tests_cant": "needs all attribute lists", "anchors": ["docx-core/src/reader/paragraph_property.rs", "docx-core/src/reader/run_property.rs", "docx-core/src/reader/attributes/width.rs", "docx-core/src/reader/comment.rs"]}
{"id": "C14", "title": "Enumerated attribute values survive writing and reading", "statement": "For each enumerated attribute type, the value printed into XML is read back as the same value; for the anchor position type this fails for exactly one value.", "quantifier": "all values of all enumerated types", "why_tests_cant": "two hand-written tables per type must be inverse of each other", "anchors": ["docx-core/src/types"]}
{"id": "C15", "title": "Unknown attribute values have a defined reading", "statement": "For every string whatsoever, the reader of an enumerated attribute either returns one of the type's values or reports an error and never panics; strings outside the table yield the documented default of the type.", "quantifier": "all strings", "why_tests_cant": "infinitely many unknown strings", "anchors": ["docx-core/src/types"]}
{"id": "C16", "title": "Sequentially generated ids are fresh", "statement": "Within one thread and without a reset, the identifiers produced by each identifier generator for paragraphs, bookmarks, comments history, footnotes, hyperlinks, pictures and table-of-contents entries are pairwise distinct, for any number of requests below the counter's range, and their printed form is distinct as well.", "quantifier": "all numbers of requests", "why_tests_cant": "unbounded histories; printed fixed-width forms change length", "anchors": ["docx-core/src/documents/paragraph_id.rs", "docx-core/src/documents/bookmark_id.rs", "docx-core/src/documents/toc_key.rs", "docx-core/src/documents/history_id.rs"]}
{"id": "C17", "title": "Concurrently generated ids are fresh", "statement": "When several threads request picture, hyperlink, bookmark or footnote identifiers at the same time, no identifier is handed out twice. False, since the shared counter is read and written in two separate steps; even one thread can receive the same identifier twice. Any schedule in which no two requests overlap does give distinct identifiers.", "quantifier": "all schedules of all numbers of threads", "why_tests_cant": "schedules cannot be enumerated by tests", "anchors": ["docx-core/src/documents/bookmark_id.rs", "docx-core/src/documents/hyperlink_id.rs", "docx-core/src/documents/pic_id.rs", "docx-core/src/documents/footnote_id.rs"]}
{"id": "C18", "title": "Paragraph ids are unique after build preparation", "statement": "Preparing a document for build leaves every paragraph of the body, tables, content controls, headers, footers, comments and footnotes with a non-empty identifier that no other such paragraph carries. Exception: paragraphs inside the text of a footnote reference or inside a text box are not visited, so duplicates among those survive.", "quantifier": "all documents, any nesting, any initial ids", "why_tests_cant": "recursion through mutually nested structures", "anchors": ["docx-core/src/documents/mod.rs:refresh_duplicate_para_ids", "docx-core/src/documents/mod.rs:ensure_unique_paragraph_id"]}
{"id": "C19", "title": "Paragraph ids already unique are left alone", "statement": "If the paragraph identifiers of a document are already non-empty and distinct then preparation changes nothing; in general the first paragraph carrying an identifier keeps it, and only later duplicates and empty identifiers are replaced.", "quantifier": "all documents", "why_tests_cant": "same", "anchors": ["docx-core/src/documents/mod.rs:refresh_duplicate_para_ids"]}
{"id": "C20", "title": "Searching for a free paragraph id ends", "statement": "The search for an unused identifier always ends with an identifier that is not in use, whatever identifiers are taken and whatever the counter value, unless the counter is exhausted, in which case it panics.", "quantifier": "all sets of used ids and counter values", "why_tests_cant": "all histories", "anchors": ["docx-core/src/documents/mod.rs:next_unique_paragraph_id", "docx-core/src/documents/paragraph_id.rs"]}
{"id": "C21", "title": "Paragraph ids created while writing are unique too", "statement": "The paragraph ids in the written document are the stored ones plus consecutive new ones made for section ends, empty cells, cells with a single table and tables of contents; they are pairwise distinct if the stored ones are and no stored id is among the new ones, and (unless a table of contents drops an id) only then. In general they are not distinct: the counter restarts at 1 when the package is prepared, so the new ids repeat those of the first paragraphs the program made.", "quantifier": "all documents", "why_tests_cant": "needs the whole package", "anchors": ["docx-core/src/documents/elements/section.rs", "docx-core/src/documents/elements/table_cell.rs", "docx-core/src/documents/elements/table_of_contents.rs"]}
{"id": "C22", "title": "Every picture relationship leads to the picture's bytes", "statement": "After packaging, for every picture in the body, headers and footers, following the relationship id written into the picture through the relationship list of its part and the media list of the package leads to exactly the bytes the user supplied, also when several pictures share an id, share bytes, or collide in checksum.", "quantifier": "all sequences of pictures with any ids and bytes", "why_tests_cant": "all histories of registrations, and checksum collisions", "anchors": ["docx-core/src/documents/image_collector.rs:MediaRegistry", "docx-core/src/documents/image_collector.rs:visit_picture"]}
{"id": "C23", "title": "Media parts are stored once and named uniquely", "statement": "The media list of a package never contains two entries with the same name or two entries with the same bytes, so identical images are stored once.", "quantifier": "all sequences of pictures", "why_tests_cant": "same", "anchors": ["docx-core/src/documents/image_collector.rs:MediaRegistry::register"]}
{"id": "C24", "title": "Picture relationship ids are unique per part", "statement": "Within the relationship list of one part no two pictures with different media share a relationship id.", "quantifier": "all sequences of pictures", "why_tests_cant": "same", "anchors": ["docx-core/src/documents/image_collector.rs:unique_relationship_id"]}
{"id": "C25", "title": "Streaming and buffered packaging agree", "statement": "Packing a document directly, and building it first and packing the result, either both write or both panic: they write exactly if no shape, text box, empty drawing or hyperlink field is in a part and the id counters can give the ids that are taken. They write the same entries in the same order and leave the counters with the same values. The contents are the same apart from ids taken from the counters while writing (paragraph ids, ids of tracked changes, ids of former paragraph formatting), each at the same place of the same part. They are equal if no kind of id is taken both for headers or footers and for another part (document, styles, comments, numbering, footnotes), nor both for the document and for its styles; otherwise they can differ, because the two ways render the parts in different orders.", "quantifier": "all documents with all their parts, all values of the counters, any sparse set of header and footer relationships", "why_tests_cant": "two independent implementations must agree on all inputs", "anchors": ["docx-core/src/zipper/mod.rs:zip", "docx-core/src/zipper/mod.rs:zip_docx", "docx-core/src/documents/mod.rs:build_sparse_relationships", "docx-core/src/documents/mod.rs:Docx::pack", "docx-core/src/documents/mod.rs:Docx::build"]}
{"id": "C26", "title": "Header and footer references resolve to the intended part", "statement": "After any sequence of calls that attach headers and footers to the document or to its sections, every header and footer asked for is shown - the reference in the section property leads, through the document relationships, to the part that holds it - if and only if headers, and separately footers, were attached in the order of the package (document before sections, default before first page before even pages) and none twice. What is held for a slot is what was last given for it. In other orders a reference can lead to the wrong header.", "quantifier": "all call sequences", "why_tests_cant": "histories of builder calls", "anchors": ["docx-core/src/documents/mod.rs:header", "docx-core/src/documents/mod.rs:first_header", "docx-core/src/documents/mod.rs:add_section", "docx-core/src/documents/document.rs:headers", "docx-core/src/documents/document_rels.rs"]}
{"id": "C27", "title": "Document relationship ids are unique", "statement": "When pictures and hyperlinks carry ids of the form the library gives them, no two relationships of the main part share an id if and only if the document has no footnote or no custom item. A picture that was given an id such as rId1 clashes with a fixed relationship.", "quantifier": "all documents", "why_tests_cant": "id families of unbounded size must be disjoint", "anchors": ["docx-core/src/documents/document_rels.rs:build_to", "docx-core/src/documents/elements/section_property.rs"]}
{"id": "C28", "title": "Every packaged part has a declared content type", "statement": "Every part written into the package has, in the content types part, the type the format prescribes for it, except the properties of custom items and the footnotes part: the footnotes have theirs if and only if there is a footnote, and the properties of the i-th custom item have theirs if and only if some custom item was added after exactly i web extensions (counting from 0). No part has two types.", "quantifier": "all call sequences", "why_tests_cant": "histories of builder calls", "anchors": ["docx-core/src/documents/content_types.rs", "docx-core/src/zipper/mod.rs"]}
{"id": "C29", "title": "Archive entry names are distinct", "statement": "The archive never contains two entries with the same name.", "quantifier": "all documents", "why_tests_cant": "unbounded numbers of headers, footers, media and custom items", "anchors": ["docx-core/src/zipper/mod.rs:zip_docx"]}
{"id": "C30", "title": "Documents that use numbering get a numbering relationship", "statement": "For every document put together with the library's methods, the numbering part is declared if and only if some paragraph refers to a numbering - provided numbered paragraphs do not reach the document through one of these ways, each of which loses them: a row added to a table afterwards, a content control in a cell, in a paragraph or in a hyperlink, a table of contents in a cell, the contents before or after a table of contents, or replacing the whole document.", "quantifier": "all construction histories", "why_tests_cant": "histories of builder calls", "anchors": ["docx-core/src/documents/elements/table.rs:add_row", "docx-core/src/documents/elements/table_cell.rs", "docx-core/src/documents/document.rs", "docx-core/src/documents/mod.rs:document"]}
{"id": "C31", "title": "Table cells always contain block content", "statement": "Every written cell consists of its properties followed by at least one block. It ends in a paragraph, as the format demands, if and only if its content is empty, is a single table, or ends in a paragraph (possibly inside structured tags or a table of contents); a cell whose content is a paragraph followed by a table does not.", "quantifier": "all cells, any nesting", "why_tests_cant": "nesting", "anchors": ["docx-core/src/documents/elements/table_cell.rs:build_to"]}
{"id": "C32", "title": "Comments are collected completely and once", "statement": "When a document is built, the comments part holds exactly the comments of the body, each once and in document order, and the mark of each reply names the paragraph of the comment it replies to - for bodies whose comments stand in paragraphs of the body, of tables, of content controls in cells or around a table of contents (directly or in a hyperlink) and have one paragraph each. In general a comment is written once per paragraph it has, and a comment inside a tracked insertion or a section is lost.", "quantifier": "all documents", "why_tests_cant": "nesting and order", "anchors": ["docx-core/src/documents/mod.rs:update_dependencies", "docx-core/src/documents/mod.rs:push_comment_and_comment_extended"]}
{"id": "C33", "title": "Footnotes are collected completely, in order", "statement": "Every footnote reference in the body, at any depth, contributes its footnote to the footnotes part in document order, and the footnotes part is declared exactly if there is at least one. Exception: references in headers and footers get no footnote.", "quantifier": "all documents", "why_tests_cant": "nesting", "anchors": ["docx-core/src/documents/document_tree.rs", "docx-core/src/documents/image_collector.rs", "docx-core/src/documents/footnotes.rs"]}
{"id": "C34", "title": "Table-of-contents instructions survive printing and parsing", "statement": "Printing the instruction of a table of contents and parsing the printed form yields the same settings, for all settings whose names contain no blanks or quotation marks and whose style names contain no comma; the TC field identifier is kept too unless it is empty, or is a bare switch that nothing follows. Names with blanks and styles with commas are not kept. A page reference is kept when its key has no blank; of a TC field the switches are kept.", "quantifier": "all instruction settings, with style lists of any length", "why_tests_cant": "combinatorial, with unbounded style lists", "anchors": ["docx-core/src/documents/elements/instr_toc.rs"]}
{"id": "C35", "title": "Automatic table-of-contents expansion keeps the document", "statement": "Expanding automatic tables of contents gives each empty automatic table in the body one entry for every level in range that a paragraph of the body has, as a heading or by the styles the instruction names, with the paragraph's text and in document order; each entry has its own bookmark name, which marks a paragraph with that text; all else in the document stays. It succeeds unless the counter of names runs out. Headings inside sections, tables and content controls are not listed, a name may already be in use in the document, and a table that names styles but no heading range stays empty.", "quantifier": "all document bodies, styles and counter values; any number of tables of contents", "why_tests_cant": "induction over the body", "anchors": ["docx-core/src/documents/mod.rs:update_document_by_toc"]}
{"id": "C36", "title": "Package parts are extracted without loss from flat XML", "statement": "Extracting the parts of a flat XML package terminates on every input and, when attribute values are quoted normally, returns all parts in order with the names, types and contents given. In the variant with doubled quotes, which the code caters for, each name and type loses its first character, or extraction panics if that character is not ASCII; on ASCII input extraction never panics.", "quantifier": "all inputs", "why_tests_cant": "string offsets over all inputs", "anchors": ["docx-core/src/reader/read_xml.rs:extract_xml_package_parts"]}
{"id": "C37", "title": "Run formatting survives build and read", "statement": "The formatting of a run, wherever it stands in a document, is read back as a stated function of it. It comes back as it was if and only if: the size, weight and slant for complex scripts are those of the other scripts; no width in percent is set; not both strikes are; a positional tab is relative to the margin; a border has no distance; a theme colour is a known one; and its strings are unchanged by reading. Everything else comes back.", "quantifier": "all combinations of attribute values in range, any place in any document that can be read back", "why_tests_cant": "combinatorial", "anchors": ["docx-core/src/documents/elements/run_property.rs", "docx-core/src/reader/run_property.rs"]}
{"id": "C38", "title": "Paragraph formatting survives build and read", "statement": "The formatting of a paragraph, wherever it stands in a document, with all nested former versions of it, is read back as a stated function of it. It comes back as it was if and only if: no switch is off; indents name start and end and no character counts; the alignment is a known one; the outline level is below ten; no frame has spaces; no text direction and no division is set; the section, if any, and the run formatting come back; and its strings are unchanged by reading.", "quantifier": "all combinations of attribute values in range, any depth of former versions, any place in any document that can be read back", "why_tests_cant": "combinatorial", "anchors": ["docx-core/src/documents/elements/paragraph_property.rs", "docx-core/src/reader/paragraph_property.rs"]}
{"id": "C39", "title": "Documents survive build and read", "statement": "A body made of paragraphs, runs, hyperlinks, tracked changes, bookmarks, comment ranges, structured tags and tables nested to any depth, built, written and read back, yields a stated function of it and of its section, and likewise a header, a footer and the comments; a document that consists of what comes back yields itself.", "quantifier": "all documents whose strings can be read, whose numbers are in range and whose nodes stand where they can be read back, any nesting and size, all reader states with enough paragraph ids left", "why_tests_cant": "unbounded nesting", "anchors": ["docx-core/src/documents/document.rs", "docx-core/src/reader/document.rs", "docx-core/src/reader/paragraph.rs", "docx-core/src/reader/run.rs", "docx-core/src/reader/table.rs"]}
{"id": "C40", "title": "Pixel and document unit conversions are inverse", "statement": "Converting pixels to document units and back yields the same number for every value whose conversion does not overflow 32 bits, and the exact overflow bound is given.", "quantifier": "all 32-bit values", "why_tests_cant": "range", "anchors": ["docx-core/src/types/emu.rs"]}
{"id": "C41", "title": "Heading level is clamped", "statement": "The outline level stored for a paragraph is the given level when it is at most nine and nine otherwise, for every number.", "quantifier": "all numbers", "why_tests_cant": "range", "anchors": ["docx-core/src/documents/elements/paragraph_property.rs:outline_lvl"]}
{"id": "C42", "title": "Requested part names are normalised when reading archives", "statement": "An archive entry stored under a name with forward slashes and no leading slash is found under every spelling of that name: any mixture of forward and backward slashes inside and any number of them in front; no other entry is ever returned, and a byte order mark in front of its bytes is removed. An entry that the archive itself stores with a backslash or a leading slash is not found under any request.", "quantifier": "all names", "why_tests_cant": "all strings", "anchors": ["docx-core/src/reader/read_zip.rs"]}
{"id": "C43", "title": "Comment replies keep their thread when read", "statement": "When comments are read, the parent of a comment is a comment one of its paragraphs is marked as replying to, and a comment has no parent only if it replies to none; nothing else about it changes. If a file marks a paragraph more than once, the last mark counts. Threads written by a build are read back. Both readers (archive, flat XML) agree for comments of one paragraph and may differ for longer ones. The text of each comment is put back into the range that starts it, except when the range starts inside a hyperlink.", "quantifier": "all comment lists", "why_tests_cant": "all lists", "anchors": ["docx-core/src/reader/read_docx.rs", "docx-core/src/reader/comments_extended.rs"]}
{"id": "C44", "title": "External hyperlinks get a relationship", "statement": "When a document is built, every external hyperlink that stands directly in a paragraph of the body, of a table, or around a table of contents gets one relationship with its target, no two of these relationships share an id, and none is added for anything else. A hyperlink inside a section gets none.", "quantifier": "all well-typed document bodies, of any nesting, with any hyperlinks", "why_tests_cant": "The collector visits some kinds of containers and not others; only a statement over all trees shows which links are covered, and a test fixes one tree.", "anchors": ["docx-core/src/documents/mod.rs: update_dependencies, collect_dependencies_in_table, insert_hyperlink", "docx-core/src/documents/document_rels.rs"]}
{"id": "C45", "title": "Header and footer relationships have a target", "statement": "Every header or footer relationship of the main part names a part that is in the package if and only if no header or footer slot was filled twice; replacing a header leaves a relationship without target.", "quantifier": "all call sequences", "why_tests_cant": "Counters and parts are changed by different calls; only a statement over all call sequences relates them.", "anchors": ["docx-core/src/documents/mod.rs: header, first_header, even_header, footer, add_section, attach_section_header", "docx-core/src/documents/document_rels.rs: build_to", "docx-core/src/zipper/mod.rs"]}
{"id": "C46", "title": "Building fails exactly on unwritable content or exhausted ids", "statement": "Building the document, a header or footer, the comments or the footnotes panics if and only if the part contains a shape, a text box, an empty drawing or a hyperlink field (all of which reading can produce), or one of the id counters cannot give as many ids as the content needs; otherwise it succeeds and advances each counter by exactly the number of ids needed.", "quantifier": "all documents and all values of the id counters", "why_tests_cant": "The panicking branches and the counter limits lie arbitrarily deep in the tree; only an induction over all trees gives both directions.", "anchors": ["docx-core/src/documents/elements/run.rs: build_to", "docx-core/src/documents/elements/drawing.rs: build_to", "docx-core/src/documents/elements/instr_text.rs", "docx-core/src/documents/para_id.rs", "docx-core/src/documents/history_id.rs"]}
{"id": "C47", "title": "Tracked changes are numbered in document order", "statement": "The insertions, deletions and moves in the written document carry consecutive ids in the order in which they appear, so no two share an id; the same holds of the recorded former paragraph properties. The two kinds use separate counters and do share ids.", "quantifier": "all documents", "why_tests_cant": "Ids come from global counters advanced during the recursive writing; distinctness and order must hold for every nesting.", "anchors": ["docx-core/src/documents/elements/insert.rs: build_to", "docx-core/src/documents/elements/delete.rs: build_to", "docx-core/src/documents/elements/paragraph_property_change.rs: build_to", "docx-core/src/documents/history_id.rs"]}
{"id": "C48", "title": "Only known elements and attributes are written", "statement": "Every element written for a document body, header or footer is one of a fixed list of elements and carries only the attributes listed for it, each at most once and in the listed order.", "quantifier": "all documents", "why_tests_cant": "Every optional property can be present or absent at every place; tests see a few combinations.", "anchors": ["docx-core/src/xml_builder/elements.rs", "docx-core/src/documents/elements/*.rs: build_to"]}
{"id": "C49", "title": "A built part is well-formed exactly when its stored strings are", "statement": "The document, header, footer, comments and footnotes parts consist of well-formed elements (legal names, no attribute twice, legal values and texts) if and only if each stored string that is written is legal where it stands, and an XML reader can read them if and only if each is readable. Escaped strings always are. A bookmark name is not escaped: one with an ampersand makes a part that cannot be read, and a comment author with quotes makes one that says something else.", "quantifier": "all documents, headers, footers, comments and footnotes that can be built, all strings in them", "why_tests_cant": "all strings in all places", "anchors": ["docx-core/src/documents/elements", "docx-core/src/xml_builder", "docx-core/src/documents/document.rs", "docx-core/src/escape/mod.rs"]}
{"id": "C50", "title": "Which calls accept any string", "statement": "Of the public calls that store a string in the document, a header, a footer or a comment, exactly those that escape it (texts, authors of tracked changes, style names, fonts, TC fields) can be given any string without making the part ill-formed; each of the others is broken by the string \"&\".", "quantifier": "58 calls, all strings", "why_tests_cant": "all strings", "anchors": ["docx-core/src/documents/elements/run.rs:add_text", "docx-core/src/documents/elements/bookmark_start.rs:new", "docx-core/src/documents/elements/comment.rs:author", "docx-core/src/documents/elements/hyperlink.rs:new", "docx-core/src/documents/elements/run_fonts.rs"]}
{"id": "C51", "title": "Styles survive build and read", "statement": "Writing the styles part and reading it gives, for all default formatting and all styles, the default formatting, a style \"Normal\" and then the styles in order, each as a fixed function of what was set. A style comes back unchanged exactly if it has no next style, priority or hiding flag, is a quick format style, its formatting survives and its strings do not change in XML. The style found under an id other than \"Normal\" is found under it again; the user's own \"Normal\" is not, and each write and read adds one more \"Normal\".", "quantifier": "all styles parts that can be built with readable strings and numbers in range, all ids, any number of cycles", "why_tests_cant": "all styles, all combinations of formatting", "anchors": ["docx-core/src/documents/styles.rs:build_to, find_style_by_id", "docx-core/src/documents/elements/style.rs", "docx-core/src/reader/styles.rs", "docx-core/src/reader/style.rs", "docx-core/src/reader/doc_defaults.rs"]}
{"id": "C52", "title": "Numberings survive build and read", "statement": "Writing the numbering part and reading it gives the default numbering, then the abstract numberings and numberings in order, with the ids, references, levels and overrides they had. An abstract numbering comes back unchanged exactly if it has no style links and no kind and its levels survive; the links and the kind are lost. Each write and read adds one more default numbering.", "quantifier": "all numberings that can be built with readable strings and numbers in range, any number of cycles", "why_tests_cant": "all numberings, levels and overrides", "anchors": ["docx-core/src/documents/numberings.rs", "docx-core/src/documents/elements/level.rs", "docx-core/src/documents/elements/abstract_numbering.rs", "docx-core/src/documents/elements/numbering.rs", "docx-core/src/reader/numberings.rs", "docx-core/src/reader/level.rs", "docx-core/src/reader/level_override.rs"]}
{"id": "C53", "title": "Ids of styles and numberings are unique, and references to them resolve", "statement": "The ids declared in a written styles part are unique if and only if those of the user's styles are and none is \"Normal\"; the same holds for abstract numberings and numberings and the id 1. A part that was read from a file this library wrote and is written again therefore always declares ids twice. Every numbering in a written part refers to an abstract numbering declared there if and only if each of the user's numberings refers to one of the user's or to number 1, which the default numbering uses.", "quantifier": "all styles and numbering parts that can be built", "why_tests_cant": "all lists of ids", "anchors": ["docx-core/src/documents/styles.rs:build_to", "docx-core/src/documents/numberings.rs:build_to, create_default_numbering"]}
{"id": "C54", "title": "Settings survive build and read", "statement": "Writing the settings part and reading it gives the same default tab stop (up to 2^24), document variables, flags and character spacing; everything comes back exactly if the document id has no braces, no string changes in XML and the character spacing is a supported one.", "quantifier": "all settings with readable strings and a tab stop of at most 2^24", "why_tests_cant": "all settings", "anchors": ["docx-core/src/documents/settings.rs", "docx-core/src/documents/elements/doc_id.rs", "docx-core/src/documents/elements/doc_var.rs", "docx-core/src/reader/settings.rs"]}
{"id": "C55", "title": "Reading styles, numberings and settings ends", "statement": "Reading settings ends on every input, with an error only if the XML reader reports one. Reading the numberings of a complete text ends; so does reading the styles of a complete text whose root is \"styles\", with a value unless it panics. Neither panics when no start tag lacks an attribute the reader takes; each such element without attributes makes it panic. Styles without an end tag \"styles\" are never accepted: a complete text with another root is read for ever, as is malformed XML inside a style or an abstract numbering.", "quantifier": "all texts and event streams", "why_tests_cant": "all inputs; a test cannot observe that reading never ends", "anchors": ["docx-core/src/reader/styles.rs", "docx-core/src/reader/numberings.rs", "docx-core/src/reader/settings.rs", "docx-core/src/reader/level.rs", "docx-core/src/reader/level_override.rs"]}
{"id": "C56", "title": "Styles, numbering and settings parts are well-formed exactly when their stored strings are", "statement": "These parts consist of well-formed elements if and only if each stored string that is written is legal where it stands, and an XML reader can read them if and only if each is readable. The text of a level and document variables are not escaped: an ampersand in them makes a part that is not XML.", "quantifier": "all styles, numberings and settings that can be built", "why_tests_cant": "all strings in all places", "anchors": ["docx-core/src/documents/styles.rs", "docx-core/src/documents/numberings.rs", "docx-core/src/documents/settings.rs", "docx-core/src/documents/elements/level_text.rs", "docx-core/src/documents/elements/doc_var.rs"]}
{"id": "C57", "title": "What was saved opens", "statement": "Saving a document and opening the archive succeeds: reading neither fails, panics nor runs for ever, with or without image previews, as long as the stored strings are readable XML, the elements are of the kinds that reading follows in place, the numbers are in the ranges of the format and the counter of paragraph ids has room. Custom property values are written unescaped: with an ampersand in one, opening the saved file never ends.", "quantifier": "all documents built by all sequences of calls, all other parts, all counters, all image decoders", "why_tests_cant": "all documents and histories of the counters; a test cannot observe that reading never ends", "anchors": ["docx-core/src/documents/mod.rs", "docx-core/src/documents/xml_docx.rs", "docx-core/src/zipper/mod.rs", "docx-core/src/reader/mod.rs::read_docx"]}
{"id": "C58", "title": "The body and the other parts come back after saving and opening", "statement": "The body of the opened document is the body that was saved with each element as it is read by itself, apart from paragraph ids, picture ids and picture bytes; all texts come back in their order, each as it was stored; where no element loses anything and there are no comments the body is equal to the one saved. Styles and settings come back as they are read, numberings only if a paragraph uses one.", "quantifier": "all documents of C57", "why_tests_cant": "all documents", "anchors": ["docx-core/src/documents/mod.rs", "docx-core/src/reader/mod.rs::read_docx", "docx-core/src/reader/document.rs"]}
{"id": "C59", "title": "Headers and footers come back in their slots", "statement": "If headers, and footers, are attached in the order default, first, even, each comes back in its slot with its content as it is read and all other slots are empty. Attached in another order they can be swapped: the opened document has the first page header as its default one.", "quantifier": "all documents of C57 and all six slots", "why_tests_cant": "all documents and all orders of attaching", "anchors": ["docx-core/src/documents/mod.rs", "docx-core/src/documents/document_rels.rs", "docx-core/src/reader/read_zip.rs", "docx-core/src/reader/mod.rs::read_docx"]}
{"id": "C60", "title": "Comments come back with their threads", "statement": "If comments have distinct ids and one paragraph each with distinct paragraph ids, and answers refer to comments of the document, the opened document has the same comments in the same order, each with its author, date and text as read and the comment it answers.", "quantifier": "all documents of C57 whose comments are as described", "why_tests_cant": "all documents and all threads", "anchors": ["docx-core/src/documents/comments.rs", "docx-core/src/documents/comments_extended.rs", "docx-core/src/reader/comments.rs", "docx-core/src/reader/comments_extended.rs", "docx-core/src/reader/mod.rs::read_docx"]}
{"id": "C61", "title": "Custom properties come back", "statement": "Custom properties with distinct names come back in order with their names and values as read, except those whose value is empty or only white space, which are lost.", "quantifier": "all documents of C57 and all lists of custom properties with distinct names", "why_tests_cant": "all strings", "anchors": ["docx-core/src/documents/doc_props/custom.rs", "docx-core/src/reader/custom_properties.rs", "docx-core/src/reader/mod.rs::read_docx"]}
{"id": "C62", "title": "Every picture comes back with an image of its bytes", "statement": "In the opened document the pictures of the body, and those of each header and footer, correspond one to one to those of the saved one, each with its size and position as read and with an id under which the opened images have its bytes (less a byte order mark at their start); for ids given by the library no other image has that id. It fails for an image that cannot be decoded when previews are made, for pictures of different headers with the same id (ambiguous), for a picture moved away inside a hyperlink and for ids with characters that XML escapes.", "quantifier": "all documents of C57 whose picture ids consist of letters, digits, underscores and hyphens, and all decoders", "why_tests_cant": "all documents, all bytes", "anchors": ["docx-core/src/documents/mod.rs", "docx-core/src/documents/document_rels.rs", "docx-core/src/documents/image_collector.rs", "docx-core/src/reader/mod.rs::read_images", "docx-core/src/reader/read_zip.rs"]}
{"id": "C63", "title": "Hyperlink targets come back", "statement": "The external hyperlinks of the body, if their ids are distinct, come back as the list of hyperlinks of the opened document: the same ids and targets as read, each exactly once.", "quantifier": "all documents of C57 with distinct hyperlink ids", "why_tests_cant": "all documents", "anchors": ["docx-core/src/documents/hyperlink.rs", "docx-core/src/documents/document_rels.rs", "docx-core/src/reader/mod.rs::read_docx"]}
{"id": "C64", "title": "Only the files a package's relationships lead to decide what it opens as", "statement": "What read_docx gives for an archive depends only on the content types, the relationships of the package, the document and the files their relationships lead to (headers, footers, their relationships, themes, comments, styles, numberings, settings, web settings, custom properties, images): archives with the same under these names open alike, so an entry under another name changes nothing, and neither does the order of the entries if their names are distinct. With a repeated name the order decides.", "quantifier": "all archives, image decoders, preview settings and counters of paragraph ids", "why_tests_cant": "all archives, and all entries that could be added", "anchors": ["docx-core/src/reader/mod.rs::read_docx", "docx-core/src/reader/read_zip.rs", "docx-core/src/reader/rels.rs", "docx-core/src/reader/document_rels.rs"]}
{"id": "C65", "title": "What opens has the parts it names", "statement": "An archive that opens has its content types, the relationships of the package, the document, the relationships of the document, and the styles, numberings, settings and web settings that these name; an archive of complete and sound files that lacks one of them is reported as an error. Headers, footers, themes, comments, the marks of extended comments, images and custom properties may be missing although relationships name them: then opening gives what the other files say, and nothing of these.", "quantifier": "all archives", "why_tests_cant": "all archives", "anchors": ["docx-core/src/reader/mod.rs::read_docx", "docx-core/src/reader/read_zip.rs", "docx-core/src/reader/rels.rs", "docx-core/src/reader/document_rels.rs"]}
{"id": "C66", "title": "Opening any archive comes back without a panic", "statement": "If every file that is asked for and is there is complete XML, each relationships file closes a Relationships element and the styles have the root styles, opening comes back. If moreover or instead every content type has two attributes, every extended comment its paragraph and no element of the other parts lacks an attribute it must have, and the paragraph ids suffice, it does not panic. Each condition is needed: other roots and relationships cut short go round for ever, a content type with one attribute and an extended comment without paragraph panic.", "quantifier": "all archives, complete or not, and all counters with room", "why_tests_cant": "all archives", "anchors": ["docx-core/src/reader/mod.rs::read_docx", "docx-core/src/reader/read_zip.rs", "docx-core/src/reader/rels.rs", "docx-core/src/reader/document_rels.rs", "docx-core/src/documents/content_types.rs", "docx-core/src/reader/comment_extended.rs"]}
{"id": "C67", "title": "Every file of a saved archive is XML", "statement": "For every document made by calls of the API, every file of the archive that Docx::pack writes is, but for the bytes of pictures and the custom items (stored as kept), a declaration or none and one well-formed element, provided the strings that were given are legal where they stand; and if the XML reader can read these strings, it reads every such file to its end without an error. The strings are those of the document, headers, footers, comments, footnotes, styles, numberings, settings, the core and custom properties, web extensions, ids of custom items, image ids and hyperlink targets: content types, package relationships and all other text the library adds by itself never spoils a file. A title with a raw ampersand does.", "quantifier": "all call sequences, all other parts, all counters; all files of the archive", "why_tests_cant": "a test checks the files of a few documents; a name or type the library composes could spoil a file only for particular counts of headers, web extensions or custom items, or particular strings.", "anchors": ["docx-core/src/zipper/mod.rs: zip_docx", "docx-core/src/documents/mod.rs: Docx::pack, prepare_package", "docx-core/src/documents/content_types.rs", "docx-core/src/documents/rels.rs", "docx-core/src/documents/taskpanes_rels.rs", "docx-core/src/documents/doc_props/core.rs"]}
{"id": "C68", "title": "What is kept of a custom XML item", "statement": "Adding a custom XML item keeps a text exactly when a reader reports closed elements with nothing but white space outside of them, and otherwise panics. It keeps every element with its name, its attributes and the elements in it, in order, and of the texts in an element only the last one, without the white space around it. The file of the i-th item in a saved archive is that tree written out. If no value and no text in it needs escaping, a reader of the file reports the kept tree, and adding the file as an item again keeps the same. An item of elements that each have at most one text, before their elements and without white space around it, is stored unchanged. Texts and values that need escaping are written unescaped: such a file may not be XML, or may have other elements.", "quantifier": "every text given as a custom item; every tree of elements, attributes and texts; every document saved with it", "why_tests_cant": "The outcome depends on every combination of nesting, text, white space and references in a text the caller chooses; the unit tests parse three literals.", "anchors": ["docx-core/src/xml_json/mod.rs: parse, XmlData::format, XmlDocument::from_reader", "docx-core/src/documents/custom_item.rs: CustomItem", "docx-core/src/documents/mod.rs: Docx::add_custom_item", "docx-core/src/reader/xml_parser.rs: EventReader"]}
{"id": "C69", "title": "The metadata files say what was set", "statement": "After any calls of created_at, updated_at and custom_property, among any others, docProps/core.xml of the saved archive says the dates given last (or the epoch), 'unknown' for author and last editor and revision 1; docProps/custom.xml has each property name once, with the value given last, and the properties are numbered 2, 3, ... so that no two share a number. This holds if the strings have no '<' and every '&' begins a reference, which is then resolved; other strings are written unescaped and the file may not be XML.", "quantifier": "every document, every list of calls, every order of the hash map", "why_tests_cant": "all call histories, all strings and all iteration orders of a hash map", "anchors": ["docx-core/src/documents/mod.rs::Docx::created_at", "docx-core/src/documents/mod.rs::Docx::custom_property", "docx-core/src/documents/doc_props/core.rs", "docx-core/src/documents/doc_props/custom.rs"]}
{"id": "C70", "title": "What opening an archive and saving it again keeps and loses", "statement": "Whatever archive is opened, the document it is opened as is well typed and can be prepared for saving unless the paragraphs to renumber exhaust the id counter. It can then be written, as long as the counters last, if it has no shape, text box or empty drawing; if its body, a header or a footer has one, saving panics. The body, the headers and footers and the section are kept, up to paragraph ids and the ids and bytes of pictures. A header or footer is shown in the saved archive exactly if its relationship id in the opened one is the one saving numbers it with (rIdHeader1, ...): so those of an archive the library wrote from calls in order are shown, and those of other programs need not be. Always lost: the bytes of pictures (all share one empty file), the addresses of hyperlinks, the relationship of the numberings, custom XML items, web extensions and core properties. No media file holds bytes that no picture of the document has.", "quantifier": "every archive that opens, whoever wrote it; every document for the last sentence", "why_tests_cant": "all archives of all programs, all trees, all counters", "anchors": ["docx-core/src/reader/mod.rs::read_docx", "docx-core/src/documents/mod.rs::Docx::prepare_package", "docx-core/src/documents/mod.rs::Docx::build", "docx-core/src/documents/document_rels.rs", "docx-core/src/documents/elements/shape.rs"]}
{"id": "C71", "title": "A web extension's file says what was given", "statement": "The file of a web extension, which is in the archive of every document with task panes it was added to, has the given id in braces, the reference, version, store and store type as given, and the properties in the order of the calls, each with its name and with its value as a string literal: between quotes, with a backslash before each quote of the value. A JSON reader gets the value that was given exactly if it has no backslash and no control character; backslashes are not escaped, so other values come back changed or are no JSON string.", "quantifier": "every id, reference and list of properties; values may be any strings", "why_tests_cant": "all strings and all lists of properties", "anchors": ["docx-core/src/documents/webextension.rs::WebExtension::property", "docx-core/src/documents/webextension.rs::WebExtension", "docx-core/src/zipper/mod.rs"]}
{"id": "C72", "title": "Which file a relationship leads to", "statement": "When any archive is opened, the main document is the target of the package's first relationship of that type, or word/document.xml. The relationships of a part are looked for in _rels beside it under its name with .rels, exactly if its name ends in .xml and has no other dot (but in front). All relationships in that file are read and nothing else; of several of one type the one with the least id as a string is first, and only it counts for styles, numberings, settings and web settings, which are then what that file says. A target made of plain names leads to that file from the directory of the part, or from the root of the archive if it begins with a slash; a hyperlink's target is kept as it is. A target with a step up (../) leads to nothing: steps are not resolved.", "quantifier": "every archive, part name, file of relationships, type and target", "why_tests_cant": "all archives and all targets", "anchors": ["docx-core/src/reader/rels.rs::find_rels_filename", "docx-core/src/reader/rels.rs::read_rels_xml", "docx-core/src/reader/document_rels.rs::read_document_rels", "docx-core/src/reader/read_docx.rs::read_docx", "docx-core/src/documents/rels.rs::find_target"]}
{"id": "C73", "title": "Saving and opening over and over", "statement": "A document whose contents the file format keeps and whose strings need no escaping can be saved and opened any number of times if it can be saved at all, and what it is after each turn is determined. From the second turn on nothing changes any more but the number of runs that hold nothing (from the first, unless a picture is marked for a simple position or a field instruction holds a carriage return). If no comment ends inside a paragraph, nothing changes at all from then on. Every comment that ends inside one adds exactly two empty nodes with each turn, so the document grows for ever.", "quantifier": "every such document, every number of turns", "why_tests_cant": "histories of any length", "anchors": ["docx-core/src/documents/document.rs::Document", "docx-core/src/reader/document.rs::from_xml", "docx-core/src/documents/elements/comment_range_end.rs::CommentRangeEnd", "docx-core/src/documents/elements/pic.rs::build_to"]}
{"id": "C74", "title": "What the JSON of a document says", "statement": "The JSON text of a document is JSON: whatever its strings hold and however deep it is, a reader of JSON reads exactly the value that was written. Two documents have the same JSON exactly if they have the same tree with the same properties, sections, headers and footers, where only the themes of colors, what of a size is above 32 bits and the notes of footnote references do not count. Whoever walks through it finds every text of the document once, in order. For a document that was saved and opened these are the texts that were given, as they are read; for one that was not they are escaped for XML.", "quantifier": "every document tree, every property, every string", "why_tests_cant": "any two documents, any string", "anchors": ["docx-core/src/documents/mod.rs::Docx::json", "docx-core/src/documents/document.rs::Document", "docx-core/src/documents/elements/run_property.rs::RunProperty", "docx-core/src/documents/elements/paragraph_property.rs::ParagraphProperty", "docx-core/src/documents/elements/section_property.rs::SectionProperty"]}
{"id": "C75", "title": "The JSON has the types declared for it", "statement": "The JSON of every document whose children and values are all of declared kinds has, after it is parsed, the TypeScript type DocumentJSON that docx-wasm declares for it, and that of its comments has the type declared for comments, where a member declared as possibly null may be missing. To the letter this also needs rows with heights and complete frames, positions and page numbers. No picture has its declared type (the image is declared a string), and moves, tags and page numbers in paragraphs are not declared.", "quantifier": "every document tree of declared kinds, of any size and depth", "why_tests_cant": "every combination of properties and nested children, present or absent", "anchors": ["docx-wasm/js/json/document.ts::DocumentJSON", "docx-wasm/js/json/paragraph.ts::ParagraphPropertyJSON", "docx-wasm/js/json/table.ts::TableRowPropertyJSON", "docx-wasm/js/json/drawing.ts::DrawingJSON", "docx-core/src/documents/document.rs::Document"]}
{"id": "C76", "title": "Setters change what they name and the last call wins", "statement": "After any sequence of calls of the setters of runs, fonts, line spacings, paragraphs (with their indents, borders, frames and run properties), tables, rows and cells, the JSON of the property shows for every member what these calls, read one after the other, say about it, and every member no call names is as it was: the last call that sets a member wins. Bold, italic and size also set their complex-script twins, strike and double strike exclude each other, and outline levels are at most 9. The first call for one border or margin of a group that is not there yet also sets the other members of the group to their defaults.", "quantifier": "every finite sequence of setter calls with any arguments, from any earlier state, and every path into the JSON", "why_tests_cant": "unboundedly many call histories and interactions of calls", "anchors": ["docx-core/src/documents/elements/run_property.rs::RunProperty", "docx-core/src/documents/elements/paragraph_property.rs::ParagraphProperty", "docx-core/src/documents/elements/paragraph.rs::Paragraph::wrap", "docx-core/src/documents/elements/table_property.rs::TableProperty", "docx-core/src/documents/elements/table_row_property.rs::TableRowProperty", "docx-core/src/documents/elements/table_cell_property.rs::TableCellProperty", "docx-core/src/documents/elements/paragraph_borders.rs::ParagraphBorders::set"]}
{"id": "C77", "title": "The JSON and the written XML tell the same", "statement": "Whoever walks through the JSON of a document and through the XML written for it finds the same things in the same order and nesting: paragraphs with their ids, tables, rows and cells, tracked changes with author and date, links with their targets, texts, symbols, tabs, breaks, field marks, shadings, pictures, footnotes, comments and bookmarks with their ids and names; and for each listed property of a run, paragraph (with its earlier recorded ones), table, row, cell, structured data tag or section both say the same or both say nothing. Not so for page number fields, tables of contents, section ends and cells that get a paragraph added, whose XML has more, and for numbers that are cut off, complex-script switches, spaces of frames and indents without a left side.", "quantifier": "every document tree of any size and depth, all values of all properties, every state of the id generators", "why_tests_cant": "unboundedly many trees and combinations of properties; two printers must agree on all of them", "anchors": ["docx-core/src/documents/mod.rs::Docx::json", "docx-core/src/documents/document.rs::Document", "docx-core/src/documents/elements/run_property.rs::RunProperty", "docx-core/src/documents/elements/paragraph_property.rs::ParagraphProperty", "docx-core/src/documents/elements/table_property.rs::TableProperty", "docx-core/src/documents/elements/table_cell_property.rs::TableCellProperty", "docx-core/src/documents/elements/section_property.rs::SectionProperty"]}
{"id": "C78", "title": "The JSON of styles, numberings, settings and comments tells what their files tell", "statement": "The styles in the JSON are those of the styles file in the same order, after a style Normal that only the file has, and each says the same there and here: id, type, name, links to other styles, priority, whether it is hidden, and its run and paragraph properties, for styles of tables also those of tables and cells; the default properties say the same. The abstract numberings and numberings of the JSON are those of the numbering file in the same order, after the default one that only the file has, and their levels and overrides say the same. Settings and document variables say the same, the document id with braces in the file. The comments are the same in the same order, with the same ids, authors, dates and contents. Not so for table properties of other styles and links of abstract numberings to styles, which only the JSON has, and for starts from 2^32 on.", "quantifier": "all styles, numberings, settings and comments with any number of entries, all values of all properties, every state of the id generators", "why_tests_cant": "unboundedly many lists and combinations of properties; two printers must agree on all of them", "anchors": ["docx-core/src/documents/styles.rs::Styles", "docx-core/src/documents/elements/style.rs::Style", "docx-core/src/documents/numberings.rs::Numberings", "docx-core/src/documents/elements/abstract_numbering.rs::AbstractNumbering", "docx-core/src/documents/elements/numbering.rs::Numbering", "docx-core/src/documents/elements/level.rs::Level", "docx-core/src/documents/elements/level_override.rs::LevelOverride", "docx-core/src/documents/settings.rs::Settings", "docx-core/src/documents/comments.rs::Comments"]}
{"id": "C79", "title": "Setters of styles, numberings and settings do what they say", "statement": "After any history of setter calls on a style, the styles, a numbering level, an abstract numbering, a numbering, an override, the numberings or the settings, the JSON shows for each member what the calls about it, one after the other, say, and nothing else changed: run setters change the run property only, paragraph setters the paragraph property only, table setters the table property only, where a whole table property replaces what was there before and is changed by later calls. The last call that sets a member wins, and what is added comes after what was there in the order of the calls. The name of the next style is shown as given, other names of styles escaped; adding a style with an id that is there does not replace it.", "quantifier": "all finite histories of setter calls with any arguments, from any state of the object", "why_tests_cant": "unboundedly many histories and arguments; interference between setters only shows in particular orders", "anchors": ["docx-core/src/documents/elements/style.rs::Style", "docx-core/src/documents/styles.rs::Styles", "docx-core/src/documents/elements/doc_defaults.rs::DocDefaults", "docx-core/src/documents/elements/level.rs::Level", "docx-core/src/documents/elements/abstract_numbering.rs::AbstractNumbering", "docx-core/src/documents/elements/numbering.rs::Numbering", "docx-core/src/documents/elements/level_override.rs::LevelOverride", "docx-core/src/documents/numberings.rs::Numberings", "docx-core/src/documents/settings.rs::Settings"]}
{"id": "C80", "title": "Setters of sections, pages, pictures, borders and other values do what they say", "statement": "After any history of setter calls on a section, a page size, margin, grid or page number type, a picture, a border of a text, paragraph, table or cell, a shading, a tab, a table position, a frame, a numbering reference or the tag and binding of a content control, the JSON shows for each member what the calls about it, one after the other, say, and nothing else changed. The header or footer given last for a slot is the one the section has, with its reference, and calls for one slot change no other. The title page is on exactly if it was or a call switches it on: a first header or footer does, the variant without title page does not. A later call for the position or size of a picture wins, and no setter changes its bytes. Turning a page does not exchange width and height, and an offset does not make a picture float.", "quantifier": "all finite histories of setter calls with any arguments, from any state of the object", "why_tests_cant": "unboundedly many histories and arguments; interference between setters only shows in particular orders", "anchors": ["docx-core/src/documents/elements/section_property.rs::SectionProperty", "docx-core/src/documents/elements/page_size.rs::PageSize", "docx-core/src/documents/elements/page_margin.rs::PageMargin", "docx-core/src/documents/elements/doc_grid.rs::DocGrid", "docx-core/src/documents/elements/page_num_type.rs::PageNumType", "docx-core/src/documents/elements/pic.rs::Pic", "docx-core/src/documents/elements/table_borders.rs::TableBorder", "docx-core/src/documents/elements/paragraph_borders.rs::ParagraphBorder", "docx-core/src/documents/elements/text_border.rs::TextBorder", "docx-core/src/documents/elements/shading.rs::Shading"]}
{"id": "C81", "title": "Saving adds the styles of tables of contents once", "statement": "If the body of a document has a table of contents, saving keeps all its styles as they are and in their order and adds, for each of the nine levels whose name no style has, one paragraph style named for it with its indent; without a table of contents saving changes no style. After that each level has a style, and saving again, or opening the saved styles and saving them, adds nothing. An added style comes back from its file as it is but for an end indent of 0. Names, not ids, decide: a style may be added with the id of another style. A table of contents in a table cell gets no styles.", "quantifier": "all bodies and all styles of a document, all states of the counters, all later bodies", "why_tests_cant": "unboundedly many combinations of styles the document already has and of histories of saving", "anchors": ["docx-core/src/documents/mod.rs::Docx::prepare_package", "docx-core/src/documents/mod.rs::Docx::expand_auto_tocs", "docx-core/src/documents/preset_styles/toc.rs::toc"]}
{"id": "C82", "title": "The JSON of an opened document tells its images, themes, web settings and hyperlinks", "statement": "The JSON text of an opened document, read as JSON, tells in order all its images, with id, path and, in base64, the original bytes and the preview exactly, all its themes with their fonts, all divisions of its web settings however deep they are nested, and all its hyperlinks; it tells this of no other document, so two documents that are otherwise the same have the same JSON exactly if these are the same. Any bytes come back from their base64. An image that has no preview still has its original bytes.", "quantifier": "all opened documents, all byte strings, all nestings of divisions, all values of the other members", "why_tests_cant": "unboundedly many byte strings and nestings", "anchors": ["docx-core/src/documents/mod.rs::Image", "docx-core/src/documents/mod.rs::Png", "docx-core/src/documents/mod.rs::Docx::json", "docx-core/src/documents/theme.rs::Theme", "docx-core/src/documents/elements/font_scheme.rs::FontScheme", "docx-core/src/documents/web_settings.rs::WebSettings", "docx-core/src/documents/elements/div.rs::Div"]}
{"id": "C83", "title": "The JSON besides the document has the types declared for it, or exactly where it has not", "statement": "The JSON text of styles, numberings and settings, read as JSON, has the TypeScript type declared for it if all values in it are of a declared kind. The JSON of web settings, themes, images, hyperlinks and of the relationships of the body always has it. The JSON of the properties of the document has it exactly if they have no revision, because a revision is a number and is declared to be a text. The JSON of the relationships of the package never has it, because they are a member of an object and are declared to be an array. A style of an unsupported type never has it.", "quantifier": "all styles, numberings, settings, web settings of any depth, themes, images, hyperlinks, relationships and properties; with and without the strict reading of optional members", "why_tests_cant": "unboundedly many values and nestings", "anchors": ["docx-wasm/js/json/index.ts::DocxJSON", "docx-wasm/js/json/styles.ts::StylesJSON", "docx-wasm/js/json/numbering.ts::NumberingsJSON", "docx-wasm/js/json/web-settings.ts::WebSettingsJSON", "docx-core/src/documents/rels.rs::Rels", "docx-core/src/documents/document_rels.rs::DocumentRels", "docx-core/src/documents/doc_props/core.rs::CorePropsConfig", "docx-core/src/documents/styles.rs::Styles", "docx-core/src/documents/numberings.rs::Numberings", "docx-core/src/documents/settings.rs::Settings"]}
{"id": "C84", "title": "The JSON of relationships, properties and content types tells all of them", "statement": "The JSON texts of two lists of relationships of the package, of two sets of relationships of the body, of two sets of core properties, or of two content type tables are the same exactly if these are the same. Read as JSON, they tell each property, count and relationship under its own name and the relationships in order. The JSON of the content types has under the path of every part the type of this part, and has no others.", "quantifier": "all relationships, core properties and content type tables", "why_tests_cant": "unboundedly many values and lengths", "anchors": ["docx-core/src/documents/rels.rs::Rels", "docx-core/src/documents/document_rels.rs::DocumentRels", "docx-core/src/documents/doc_props/core.rs::CorePropsConfig", "docx-core/src/documents/content_types.rs::ContentTypes", "docx-core/src/documents/mod.rs::Docx::json"]}
