# Formal model of docx-rs in Rocq/Coq

All sources are in `rocq/theories` (logical name `Verif`). Nothing in /repo is built or run; the tie to the code is
the citation in the comment of every definition.

## Method

* Rust strings are modelled as Coq `string`s of bytes (UTF-8). Every character the modelled code treats specially is ASCII, and UTF-8 continuation bytes are never ASCII, so byte-wise processing agrees with character-wise processing.
* `Result`/`Option` stay data. A panic is an explicit outcome. A loop that never ends is an explicit outcome `Hang`, produced exactly where the Rust loop would spin on an exhausted stream.
* Fuel appears only where recursion is not structural; theorems exclude the out-of-fuel outcome.
* Where the code violates a property, the violation is proved as a theorem with suffix `_refuted`, and the largest part that holds is proved beside it.

## Plan per property

| id | property | model and proof |
|---|---|---|
| C01 | Escaping is inverted by unescaping | `escape`, `replace_escaped` as string functions; induction over the string. |
| C02 | Escaped text can never be markup | same model; separate spec `xml_decode` (XML 1.0 reference decoding); induction. |
| C03 | The allocation-free escape path agrees with the plain one | `escape_owned` with its byte scan; induction. |
| C04 | XML written for any element tree parses back to that tree | byte-level writer state machine and byte-level tokenizer; refinement: tree -> writer calls -> bytes -> events. |
| C05 | The writer reports an error exactly on unbalanced close | writer as `step : state -> call -> state | error`; the depth of a call list is the independent spec. |
| C06 | Every close is matched with its own open | same; simulation of the flat name buffer by an explicit stack of names. |
| C07 | Text added to a run survives build and read | composition of run text, escaping, XML decoding, second decoding of the reader. |
| C08 | Text that was read can be built again | composition reader text -> `Text::build_to` -> tokenizer; refutation witness plus exact condition. |
| C09 | Event reader delivers a well-bracketed stream and then end-of-document forever | the event reader as a state machine (queue, finished flag) over tokens; invariant over requests. |
| C10 | Adjacent character data is delivered as one event | `read_text_event` over token lists; spec = concatenation of decoded pieces. |
| C11 | Reading a complete document terminates | element readers as fuelled machines over event lists with outcomes Ok/Err/Panic/Hang; well-bracketed streams by induction. |
| C12 | Reading a truncated document is reported as an error | same machines; witness streams with outcome Hang and a characterisation. |
| C13 | Reading never panics | same machines; witness streams with outcome Panic and an attribute guard under which Panic is excluded. |
| C14 | Enumerated attribute values survive writing and reading | each printer/parser table transcribed; finite case analysis. |
| C15 | Unknown attribute values have a defined reading | same; quantified over all strings. |
| C16 | Sequentially generated ids are fresh | counters as state machines; printed forms with injectivity of decimal / hexadecimal printing. |
| C17 | Concurrently generated ids are fresh | interleaving semantics of load and store steps; witness schedule, and theorem for non-overlapping schedules. |
| C18 | Paragraph ids are unique after build preparation | document tree with ids; collection and refresh passes as written; invariant used/seen. |
| C19 | Paragraph ids already unique are left alone | same model. |
| C20 | Searching for a free paragraph id ends | search as recursion on the counter; fallback ids; pigeonhole over the used set. |
| C21 | Paragraph ids created while writing are unique too | the writer as a state-passing function over the tree (BuildModel); ids in the output as a permutation of stored and new ones; iff; witness. |
| C22 | Every picture relationship leads to the picture's bytes | media registry model with an abstract checksum function (Section variable); invariant over registrations. |
| C23 | Media parts are stored once and named uniquely | same invariant. |
| C24 | Picture relationship ids are unique per part | same invariant, per part. |
| C25 | Streaming and buffered packaging agree | both entry-list producers transcribed; every part's renderer modelled (`RenderModel`); entries agree by induction over headers with sparse relationship lists; contents by a simulation of the builder run from two states of the counters (`RenderSame`), panics by the cost calculus. |
| C26 | Header and footer references resolve to the intended part | calls as a state machine over the package record; iff with the order of the calls, invariant over call histories; witness for swapped headers. |
| C27 | Document relationship ids are unique | relationship list of the main part after any calls and preparation; injectivity of decimal printing, disjoint prefixes; iff. |
| C28 | Every packaged part has a declared content type | content type map as call-history state machine, lookup by name then extension compared with the prescribed types; iff for the two exceptions. |
| C29 | Archive entry names are distinct | entry-name list of the whole archive; injectivity and disjointness. |
| C30 | Documents that use numbering get a numbering relationship | construction methods with their has_numbering flags, inductive predicate of constructible elements; flag exact outside the listed methods, one witness per listed method. |
| C31 | Table cells always contain block content | every `w:tc` of the built tree; iff for the ending; witness. |
| C32 | Comments are collected completely and once | comment collection passes transcribed over the document tree. |
| C33 | Footnotes are collected completely, in order | tree visitor transcribed; spec is an independent flattening. |
| C34 | Table-of-contents instructions survive printing and parsing | instruction printer and parser on strings. |
| C35 | Automatic table-of-contents expansion keeps the document | expansion loop over the body list. |
| C36 | Package parts are extracted without loss from flat XML | `find`/slice arithmetic on byte strings with explicit panics. |
| C37 | Run formatting survives build and read | record of run properties, builder to events, reader machine. |
| C38 | Paragraph formatting survives build and read | same for paragraph properties. |
| C39 | Documents survive build and read | document AST with nested induction; builder to events, reader machine; read (write d) = d. |
| C40 | Pixel and document unit conversions are inverse | Z arithmetic with explicit 32-bit range. |
| C41 | Heading level is clamped | case analysis. |
| C42 | Relative part names are normalised when reading archives | string functions. |
| C43 | Comment replies keep their thread when read | list functions. |
| C44 | External hyperlinks get a relationship | collector as fold over the tree; equality with a direct definition of all links. |
| C45 | Header and footer relationships have a target | counters against parts over all call histories; iff. |
| C46 | Building fails exactly on unwritable content or exhausted ids | cost of every builder (ids taken, can it fail) by induction over the tree; iff. |
| C47 | Tracked changes are numbered in document order | list of ids in the built tree equals an interval; witness across kinds. |
| C48 | Only known elements and attributes are written | vocabulary table; every built element against it. |
| C49 | A built part is well-formed exactly when its stored strings are | list of stored strings per node against the pieces of the built tree; iff, with two witnesses. |
| C50 | Which calls accept any string | enumeration of the calls with the piece each writes; iff. |
| C51 | Styles survive build and read | styles record, builder to events, reader machine; what is read as a function, its fixed points characterised; induction over the number of cycles. |
| C52 | Numberings survive build and read | same for numberings. |
| C53 | Ids of styles and numberings are unique | ids of the children of the built root as a list; iff. |
| C54 | Settings survive build and read | same as C51 for settings. |
| C55 | Reading styles, numberings and settings ends | the readers as machines over arbitrary events with outcomes value, error, panic, hang; witnesses for the hangs. |
| C56 | Styles, numbering and settings parts are well-formed exactly when their stored strings are | as C49. |
| C57 | What was saved opens | the whole of `read_docx` over archives as lists of named files; preparing, writing and packing composed with it; the reading of each part from the theorems on parts. |
| C58 | The body and the other parts come back after saving and opening | follows the calls through preparation, writing, packing, lookup by path and reading. |
| C59 | Headers and footers come back in their slots | relationship ids against positions; refuted for other orders. |
| C60 | Comments come back with their threads | ids and paragraph ids as keys of the lookup of answers. |
| C61 | Custom properties come back | builder, text and reader of the part composed. |
| C62 | Every picture comes back with an image of its bytes | the ids, media names and relationships given in preparation, followed through path resolution and image lookup; counterexamples outside the hypotheses. |
| C63 | Hyperlink targets come back | order of collected hyperlinks as a permutation. |
| C64 | Only named files decide | two runs of the opening in lockstep on archives that agree on the files asked for. |
| C65 | What opens has the parts it names | inversion of a successful run; with C66 for the error; rewriting of the run where the optional files are missing. |
| C66 | Opening any archive comes back without a panic | the termination and calmness lemmas of the part readers composed along the opening; the remaining readers (relationships, custom properties, themes, web settings, content types) proved alike. |
| C67 | Every file of a saved archive is XML | each entry comes from one step of the packing; per part, well-formed just when its strings are legal (C49, C56); an invariant over the calls for the strings that the library composes. |
| C68 | What is kept of a custom XML item | the recursive parser over the event reader, with fuel shown to suffice; its result characterised by the tree of events in both directions (bracketing of the reader, C09); the written text tokenised back tag by tag; the file traced through the packing steps. |
| C69 | The metadata files say what was set | the calls as a fold, with the last of each kind by induction from the end; the written elements as events of the reader (as for C57). |
| C70 | What opening an archive and saving it again keeps and loses | an invariant of every reader (what the tree it gives can hold, as a Hoare-style triple on the reader monad); then the lemmas about saving (C33, C34, C49) applied to what it says. |
| C71 | A web extension's file says what was given | the replaced string character by character, decoded as the XML reader does; induction on the length for the JSON reader. |
| C72 | Which file a relationship leads to | relationships as events of the text, targets as lists of names; paths segment by segment, the set of targets as a list sorted by id, inversion of opening for the parts. |
| C73 | Saving and opening over and over | histories of turns of the document part, by induction; what is read is a fixed point of reading up to empty runs, and the counts of nodes and of comment ends are followed. |
| C74 | What the JSON of a document says | the encoders serde derives or the code writes by hand, function by function, and the printer of serde_json; a reader of JSON text is the specification. Injectivity up to what is not shown, by induction on the tree; texts are found by a walk over the value. |
| C75 | The JSON has the types declared for it | the TypeScript declarations of docx-wasm/js/json as data, and when a JSON value has such a type, as an inductive relation. Induction on the tree; every record by looking up each declared member. |
| C76 | Setters change what they name and the last call wins | every setter as a function on property records (with its defaults); the specification says for each call which members of the JSON it puts, drops or fills, as changes of a view from paths to values. One call: every name of the object; histories by induction, views agreeing on all single members and on which groups are missing. |
| C77 | The JSON and the written XML tell the same | two walkers, one over the tree of XML elements and one over JSON values, driven by one table of names, that list the things they find; induction over the document tree. Properties: a table of paths into the JSON and into the elements; each place by searching the children for its name, recorded earlier paragraph properties by induction on their depth. |
| C78 | The JSON of styles, numberings, settings and comments tells what their files tell | the places of C77 for the entries of these files; the entries of an array and the children of a name one by one, by induction over the lists. |
| C79 | Setters of styles, numberings and settings do what they say | each call as changes of the members it names (C76); the history projected to the calls about one part, by induction over the history. |
| C80 | Setters of sections, pages, pictures, borders and other values do what they say | as C79; slots of headers and footers and the title page by induction over the history. |
| C81 | Saving adds the styles of tables of contents once | the loop over the levels by induction over distinct levels; reading back by C51's model of rereading. |
| C82 | The JSON of an opened document tells its images, themes, web settings and hyperlinks | what serde derives, the JSON reader of C74, a reader of base64 (RFC 4648); induction over bytes and divisions. |
| C83 | The JSON besides the document has the types declared for it, or exactly where it has not | the declarations and the relation of C75, extended to styles, numberings, settings, web settings and themes; each record by looking up each declared member, divisions by induction; refutations by inversion. |
| C84 | The JSON of relationships, properties and content types tells all of them | what serde derives, the JSON reader of C74; each record by injectivity of its members. |

## Trusted base

* Coq 8.16.1's kernel. No axioms: `Print Assumptions` stands under every theorem named in MANIFEST.json (in OpenProperties.v, ArchiveProperties.v and later files once, for the conjunction of all their theorems) and says "Closed under the global context" for each of them. (`coqchk -o` lists seven entries `Coq.ssr.ssrunder.Under_rel.*`; they are fields of a module type of the standard library that is loaded but not used.)
* The reading of the Rust source: every definition of a `*Model.v` file cites the lines it models.
* The models of external code: `WriterModel.v` (xml-rs event writer as used by xml_builder and its escaping), `XmlParser.v` (the quick-xml/xml-rs reader as seen through the crate's own wrapper), the zip crate's directory names, `BTreeMap`, and for the JSON what serde derives (`JsonModel.v`, with its rename and skip attributes) and the pretty printer of serde_json (`pretty`).

### What is modelled

| files | modelled code |
|---|---|
| Str, StrFind | byte strings, decimal and hexadecimal printing and parsing, `find`, `replace`, `trim` |
| Escape | escape.rs |
| Writer, XmlParser, XmlSpec, XmlTree | xml event writer, its text, and reading it back |
| Types | the enums of types/ with their printers and parsers |
| Units | px/emu/twip conversions |
| Ids | generators of ids, shared and thread local |
| ZipName, FlatXml | names of parts, flat XML packages and their base64 |
| Media | media deduplication |
| Props, Ast | all property records and the document tree |
| Pass, ParaId, Tree, Deps, Toc, Prepare | documents/mod.rs: paragraph ids, pictures and footnotes, comments and hyperlinks, tables of contents, prepare_package |
| Instr | field instructions: printer and parser |
| Pack | documents/mod.rs calls, document_rels.rs, content_types.rs, rels.rs, zipper/mod.rs |
| Build, Vocab, BuildIds, Mark, Cell | `build_to` of the whole document tree and all property records, parts document, header, footer, comments, footnotes |
| Float | `f64::from_str` and `f32::from_str` followed by a conversion to an integer type |
| ReadBase, ReadProps, ReadModel | the readers of the document body, headers, footers and comments, with all readers of elements and properties below them; outcomes value, error, panic and hang |
| Round, Survive | no code: what building and reading a tree gives (`reread`), for which trees (`kept`, `fits`), and what comes back unchanged (`survives`), with the proofs that connect builders, writer, XML reader and readers |
| Well, Setter | which stored strings a part consists of; the public calls that store a string |
| Numbering | construction methods and their has_numbering flags |
| Style | styles, numbering and settings parts: records, builders and readers, documents/{styles,numberings,settings}.rs |
| Render | the builders of the remaining parts (content types, relationships, properties, fonts, extended comments, task panes, web extensions, custom item properties) and the texts of whole archives |
| Path, Open | the paths of parts and relationship targets (reader/read_zip.rs, rels.rs, `std::path` as used there), the readers of relationships, content types, custom properties and extended comments, and `read_docx` as a whole |
| Gives, MediaBytes, Resave | what reading gives, whatever the file; opening and saving again |
| Target | paths, files of relationships and the files they lead to |
| Cycle | histories of saving and opening the document part; fixed points of reading, growth |
| Json | the JSON of the document tree and of comments; a reader of JSON text |
| Ts | the TypeScript declarations of the JSON and which documents they fit |
| Call | the setters of property records and what they say |
| Tell | what the JSON and the XML of the same document have in common |
| Sheet | the JSON of styles, numberings and settings |
| Entry | the setters of styles, numbering levels, numberings and settings |
| Value | the setters of sections, pages, pictures, borders and other values |
| Preset | the styles saving adds for tables of contents (preset_styles/toc.rs) |
| Glean | the JSON of images (with the base64 crate), themes, web settings and hyperlinks |
| Shape | the JSON of relationships, content types and of the properties of the document, and which styles, numberings and settings the declarations fit |
| Meta, Item, Web | the calls for the properties of a document; custom XML items (xml_json/mod.rs, documents/custom_item.rs) |

### What is not modelled

The JSON of the parts other than the document tree, the comments, styles, numberings, settings, images, themes, web settings, hyperlinks, relationships, content types and core properties, image decoding (`Pic::new` with the image feature), the wasm binding, the writing of themes and web settings (there is none), and the internals of zip compression. Floating point numbers are kept only up to their integer part, which is all the readers use (FloatModel). Not read in the model: shapes and VML (only followed to their end), footnotes. The kind of an error is not modelled, only that there is one.
