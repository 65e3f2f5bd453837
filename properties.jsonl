{"id": "C01", "title": "The verdict is the worst finding", "statement": "For every report assembled by creating results and appending finished results to their parent, the level of the report equals the highest level found anywhere in it, and ok() is true exactly when no ERROR and no CRITICAL finding exists at any depth.", "quantifier": "all report trees of any shape, depth and messages", "why_tests_cant": "There are infinitely many trees; a test checks a handful of shapes, while a missed level propagation shows only in particular nestings.", "anchors": ["aas_test_engines/result.py: AasTestResult.append", "aas_test_engines/result.py: AasTestResult.ok", "aas_test_engines/result.py: Level.__or__"]}
{"id": "C02", "title": "Appending never hides a finding", "statement": "Appending a result to a report never lowers the report's level, keeps every previously recorded entry in order, adds the new entry at the end, and turns a report from ok to not ok exactly when the appended entry is not ok.", "quantifier": "all reports and all appended entries", "why_tests_cant": "A regression that masks a level needs a specific pair of levels and prior history.", "anchors": ["aas_test_engines/result.py: AasTestResult.append"]}
{"id": "C03", "title": "JSON report round trip", "statement": "Rebuilding a report from its dictionary form gives back the same report (messages, levels, order, nesting) exactly when every node's level is at least as high as its children's; in particular for every report assembled bottom-up.", "quantifier": "all report trees", "why_tests_cant": "Loss of information can hide in any shape of tree or level combination.", "anchors": ["aas_test_engines/result.py: AasTestResult.to_dict", "aas_test_engines/result.py: AasTestResult.from_json"]}
{"id": "C04", "title": "A finding recorded late still counts", "statement": "For every sequence of report creation and append operations on shared report objects, a finding added to an entry that is already part of a report is reflected in that report's verdict.", "quantifier": "all sequences of create/append operations over any number of shared report objects", "why_tests_cant": "The order in which objects are linked matters; tests use the bottom-up order only.", "anchors": ["aas_test_engines/result.py: AasTestResult.append", "aas_test_engines/result.py: AasTestResult.ok"]}
{"id": "C05", "title": "Text report shows every finding once, in order", "statement": "The text report contains exactly one line per recorded entry, in the order of recording with parents before children, indented by three blanks per nesting depth, and marked with the color of that entry's own level.", "quantifier": "all report trees", "why_tests_cant": "Requires a claim about every tree and every level combination.", "anchors": ["aas_test_engines/result.py: AasTestResult.to_lines", "aas_test_engines/result.py: Level.color"]}
{"id": "C06", "title": "HTML report is well formed", "statement": "The HTML fragment generated for a report has properly nested, closed elements for every report and every message text, and the generated page contains that fragment in place of the template's placeholder and nothing else is changed.", "quantifier": "all report trees, all message strings", "why_tests_cant": "Markup breaks on particular message contents or nestings.", "anchors": ["aas_test_engines/result.py: AasTestResult._to_html", "aas_test_engines/result.py: AasTestResult.to_html"]}
{"id": "C07", "title": "HTML report cannot be injected", "statement": "Message text from a checked file or server never introduces markup into the HTML report: the text occurs in escaped form, contains none of < > \" ', and unescaping gives back the original message.", "quantifier": "all message strings over Unicode", "why_tests_cant": "Injection needs a crafted message; absence can only be shown for all strings.", "anchors": ["aas_test_engines/result.py: AasTestResult._to_html"]}
{"id": "C08", "title": "Context stack is always restored", "statement": "Whatever happens inside a `with start(...)` block - nested blocks, abort, foreign exceptions - the stack of active reports after leaving the block is the stack from before entering it, apart from entries recorded into the enclosing report.", "quantifier": "all programs built from start, write, abort, raise and sequencing, with any nesting", "why_tests_cant": "The leak appears for particular combinations of nesting and exceptions.", "anchors": ["aas_test_engines/result.py: ContextManager.__enter__", "aas_test_engines/result.py: ContextManager.__exit__", "aas_test_engines/result.py: start", "aas_test_engines/result.py: write", "aas_test_engines/result.py: abort"]}
{"id": "C09", "title": "abort stops one block and nothing else", "statement": "An abort ends exactly the innermost open block: its finding is recorded in that block's report, the block's report is attached to the enclosing one, and execution continues after the block.", "quantifier": "all programs and all positions of the abort", "why_tests_cant": "The property is about every nesting depth and every continuation.", "anchors": ["aas_test_engines/result.py: ContextManager.__exit__", "aas_test_engines/result.py: abort"]}
{"id": "C10", "title": "Foreign exceptions are recorded or propagated, never swallowed silently", "statement": "With catch_all_exceptions no foreign exception leaves the block and a CRITICAL finding is recorded; without it the exception reaches the caller unchanged and the partial report of the block is not attached to the enclosing report.", "quantifier": "all programs, all exceptions, both settings of catch_all_exceptions", "why_tests_cant": "Exceptions may occur at any point of any program.", "anchors": ["aas_test_engines/result.py: ContextManager.__exit__"]}
{"id": "C11", "title": "Test case filter semantics", "statement": "A test case filter selects a name exactly when (there is no include pattern or some include pattern matches the name) and no exclude pattern matches the name; excluding wins over including.", "quantifier": "all filter strings and all names", "why_tests_cant": "The space of filters and names is unbounded.", "anchors": ["aas_test_engines/config.py: TestCaseFilter.__init__", "aas_test_engines/config.py: TestCaseFilter.selects"]}
{"id": "C12", "title": "Filter syntax", "statement": "A filter string is rejected exactly when it contains more than one '~'; otherwise the part before '~' gives the include patterns and the part after gives the exclude patterns, separated by ':'; blank patterns are ignored.", "quantifier": "all filter strings", "why_tests_cant": "Corner cases such as empty parts, blanks and repeated separators are unbounded.", "anchors": ["aas_test_engines/config.py: TestCaseFilter.__init__"]}
{"id": "C13", "title": "Glob patterns match the whole name", "statement": "A filter pattern matches a name exactly when the name is obtained by replacing each '*' by some string, each '?' by one character and each bracket class by one of its members; matching is case sensitive and covers the complete name. (Patterns with a bracket class in which only empty ranges such as 'b-a' stand before a '!' are excluded: the standard library reads those as negated.)", "quantifier": "all glob patterns and all names", "why_tests_cant": "Matching involves an existential over all ways to split the name.", "anchors": ["aas_test_engines/config.py: TestCaseFilter.__init__", "aas_test_engines/config.py: TestCaseFilter.selects"]}
{"id": "C14", "title": "Query parameters survive the URL", "statement": "Building a request URL drops exactly the parameters whose value is None and keeps the others in order, and decoding the query of the URL gives back exactly those names and values.", "quantifier": "all parameter dictionaries over arbitrary Unicode names and values", "why_tests_cant": "Encoding bugs show for particular characters only.", "anchors": ["aas_test_engines/http.py: Request.make_url"]}
{"id": "C15", "title": "Requests go to host plus path", "statement": "The URL that is requested is the configured host without its trailing slash followed by the prefixed path, so no double slash and no missing slash arises between host and path.", "quantifier": "all hosts (with or without trailing slash), prefixes and paths", "why_tests_cant": "Depends on combination of host, prefix and path.", "anchors": ["aas_test_engines/http.py: HttpClient.send"]}
{"id": "C16", "title": "Path prefix removal respects segment borders", "statement": "The configured prefix is removed from the path of every request whose path lies at or below the prefix, and no other path is altered.", "quantifier": "all prefixes, paths and query strings", "why_tests_cant": "Segment border conditions occur for particular combinations only.", "anchors": ["aas_test_engines/http.py: HttpClient.send"]}
{"id": "C17", "title": "Prefixes accumulate", "statement": "Descending into a sub path of an already descended client addresses the concatenation of both prefixes.", "quantifier": "all clients and all pairs of prefixes", "why_tests_cant": "Requires all nestings of clients.", "anchors": ["aas_test_engines/http.py: HttpClient.descend"]}
{"id": "C18", "title": "Configured headers reach the server", "statement": "Every additional header configured on the client is part of every request the client sends.", "quantifier": "all clients, all headers, all requests", "why_tests_cant": "A universal claim over every request of every test suite.", "anchors": ["aas_test_engines/http.py: HttpClient.__init__", "aas_test_engines/http.py: HttpClient.send"]}
{"id": "C19", "title": "Identifiers are encoded reversibly", "statement": "The URL-safe base64 encoding of identifiers is injective, decodable to the original string, and only contains letters, digits, '-' and '_'.", "quantifier": "all strings of Unicode scalar values", "why_tests_cant": "Padding and alphabet corner cases depend on the length and the bytes.", "anchors": ["aas_test_engines/data_types.py: base64_urlsafe"]}
{"id": "C20", "title": "Part names are normalized", "statement": "A normalized package path contains no empty, '.' or '..' segment, never points above the package root, keeps a leading slash, and equals the result of lexically resolving the segments from left to right.", "quantifier": "all path strings", "why_tests_cant": "Infinite set of paths; escapes need a particular arrangement of '..'.", "anchors": ["aas_test_engines/opc.py: normpath"]}
{"id": "C21", "title": "Normalization is idempotent", "statement": "Normalizing an already normalized package path does not change it.", "quantifier": "all path strings", "why_tests_cant": "Counterexamples are rare combinations of blanks and dots.", "anchors": ["aas_test_engines/opc.py: normpath"]}
{"id": "C22", "title": "Splitting a part name", "statement": "Splitting a path into directory and file name and joining with '/' gives back the path, and the file name contains no '/'.", "quantifier": "all path strings", "why_tests_cant": "Universal string law.", "anchors": ["aas_test_engines/opc.py: splitpath"]}
{"id": "C23", "title": "Relationship scan terminates", "statement": "Reading the relationships of a package terminates for every package, in particular for packages whose parts refer to each other in cycles.", "quantifier": "all packages (any number of parts, any relationship graph including cycles)", "why_tests_cant": "Termination for all graphs cannot be tested.", "anchors": ["aas_test_engines/opc.py: _scan_relationships", "aas_test_engines/opc.py: _check_relationships"]}
{"id": "C24", "title": "Each part is scanned at most once", "statement": "While reading the relationships of a package the relationships of one part are read at most once, hence at most (number of parts + 1) relationship files are opened.", "quantifier": "all packages", "why_tests_cant": "Repeated scans appear in graphs with sharing.", "anchors": ["aas_test_engines/opc.py: _scan_relationships"]}
{"id": "C25", "title": "Dangling relationships are reported", "statement": "If reading the relationships of a package yields an ok result then every relationship found in it, at any depth, points to a part that exists in the package; a relationship to a missing part always yields an ERROR.", "quantifier": "all packages", "why_tests_cant": "Depends on arbitrary relationship graphs and path spellings.", "anchors": ["aas_test_engines/opc.py: _scan_relationships"]}
{"id": "C26", "title": "Relationship files of all parts are followed", "statement": "The relationships of every part that is reachable from the package root are read, including parts stored at the top level of the package.", "quantifier": "all packages", "why_tests_cant": "Only appears for parts at particular locations.", "anchors": ["aas_test_engines/opc.py: _scan_relationships", "aas_test_engines/opc.py: splitpath"]}
{"id": "C27", "title": "Reading a broken package does not crash", "statement": "For every zip archive, reading the package yields a report; malformed content type or relationship files yield an ERROR finding and no exception.", "quantifier": "all zip archives with arbitrary part contents", "why_tests_cant": "Requires all possible contents of the parts.", "anchors": ["aas_test_engines/opc.py: read_opc", "aas_test_engines/opc.py: _check_content_type", "aas_test_engines/opc.py: _scan_relationships", "aas_test_engines/file.py: check_aasx_data"]}
{"id": "C28", "title": "Deprecated relationship types are mapped", "statement": "A relationship with a deprecated type is treated exactly as if it had the official type, and a WARNING (never an ERROR) is recorded for it.", "quantifier": "all packages using any mixture of deprecated and official types", "why_tests_cant": "Mixtures are unbounded.", "anchors": ["aas_test_engines/opc.py: _scan_relationships", "aas_test_engines/file.py: DEPRECATED_TYPES"]}
{"id": "C29", "title": "No AAS file is skipped silently", "statement": "If checking a package is ok, the package has exactly one aasx-origin and every file that an aasx-spec relationship of the origin refers to was checked and is itself ok, or a WARNING states why it was not checked.", "quantifier": "all packages", "why_tests_cant": "Depends on the relationship graph and its order.", "anchors": ["aas_test_engines/file.py: check_aasx_data", "aas_test_engines/file.py: _check_files", "aas_test_engines/opc.py: _scan_relationships"]}
{"id": "C30", "title": "Package check short circuits", "statement": "If the package structure itself is not ok, no contained file is checked and the verdict is not ok; otherwise the verdict is ok exactly when all checked files are ok.", "quantifier": "all packages", "why_tests_cant": "All combinations of package and content defects.", "anchors": ["aas_test_engines/file.py: check_aasx_data", "aas_test_engines/file.py: _check_files"]}
{"id": "C31", "title": "Unparsable documents are errors", "statement": "A document that is not parseable as JSON or XML respectively yields an ERROR verdict and no further findings about the content.", "quantifier": "all byte strings", "why_tests_cant": "Set of malformed documents is infinite.", "anchors": ["aas_test_engines/file.py: check_json_file", "aas_test_engines/file.py: check_xml_file"]}
{"id": "C32", "title": "The requested model type is honoured", "statement": "Checking a document against a requested model type checks exactly that type, for JSON and for XML, for data and for file entry points.", "quantifier": "all documents and all model types", "why_tests_cant": "Universal over types and documents.", "anchors": ["aas_test_engines/file.py: check_json_file", "aas_test_engines/file.py: check_xml_file", "aas_test_engines/file.py: check_json_data", "aas_test_engines/file.py: check_xml_data"]}
{"id": "C33", "title": "Valid documents of every model type are accepted without exception", "statement": "Checking a document against any model type of the meta model returns a report for every document, i.e. it never raises.", "quantifier": "all model types and all documents", "why_tests_cant": "All documents of all types.", "anchors": ["aas_test_engines/test_cases/v3_0/__init__.py: json_to_obj", "aas_test_engines/test_cases/v3_0/__init__.py: xml_to_obj", "aas_test_engines/test_cases/v3_0/submodel_templates.py: parse_submodel_templates"]}
{"id": "C34", "title": "JSON meta model check is sound", "statement": "If the meta model check of a JSON document is ok then the document conforms to the meta model: all required attributes present, no unknown attributes, every value of the declared type, enumeration literals and string lengths/patterns respected, at every depth.", "quantifier": "all JSON values, all meta model types", "why_tests_cant": "Conformance quantifies over every position of every document.", "anchors": ["aas_test_engines/test_cases/v3_0/parse.py: parse", "aas_test_engines/test_cases/v3_0/parse.py: parse_concrete_object", "aas_test_engines/test_cases/v3_0/parse.py: parse_abstract_object", "aas_test_engines/test_cases/v3_0/parse.py: parse_list", "aas_test_engines/test_cases/v3_0/parse.py: parse_string", "aas_test_engines/test_cases/v3_0/parse.py: parse_enum", "aas_test_engines/test_cases/v3_0/parse.py: parse_string_formatted_value", "aas_test_engines/test_cases/v3_0/parse.py: parse_bool"]}
{"id": "C35", "title": "JSON meta model check is complete", "statement": "If a JSON document conforms to the meta model then the meta model check records no error and yields an object that carries exactly the document's content.", "quantifier": "all conforming JSON values", "why_tests_cant": "Universal over conforming documents.", "anchors": ["aas_test_engines/test_cases/v3_0/parse.py: parse", "aas_test_engines/test_cases/v3_0/parse.py: parse_and_check_json"]}
{"id": "C36", "title": "The meta model check never crashes on JSON", "statement": "For every JSON value and every meta model type, the meta model check returns; malformed input is reported as findings, never as exception.", "quantifier": "all JSON values", "why_tests_cant": "Robustness for every input value.", "anchors": ["aas_test_engines/test_cases/v3_0/parse.py: parse", "aas_test_engines/test_cases/v3_0/adapter.py: JsonAdapter"]}
{"id": "C37", "title": "Findings point into the document", "statement": "Every error of the meta model check names a position that exists in the checked document (or a missing/unknown attribute at such a position).", "quantifier": "all JSON values", "why_tests_cant": "Universal over all error positions.", "anchors": ["aas_test_engines/test_cases/v3_0/parse.py: parse_concrete_object", "aas_test_engines/test_cases/v3_0/parse.py: parse_list", "aas_test_engines/test_cases/v3_0/adapter.py: AdapterPath"]}
{"id": "C38", "title": "Key order is irrelevant", "statement": "Reordering the members of JSON objects at any depth does not change the verdict of the meta model check nor the parsed object.", "quantifier": "all JSON values and all permutations of object members", "why_tests_cant": "Permutations of every object in every document.", "anchors": ["aas_test_engines/test_cases/v3_0/parse.py: parse_concrete_object"]}
{"id": "C39", "title": "Constraints are checked exactly if the meta model is ok", "statement": "Constraint checks are executed exactly when the meta model check is ok; otherwise a WARNING states that they have been skipped and the verdict is not ok.", "quantifier": "all documents", "why_tests_cant": "All documents.", "anchors": ["aas_test_engines/test_cases/v3_0/parse.py: _parse_and_check"]}
{"id": "C40", "title": "The reflected schema is the AAS meta model", "statement": "For every class of the AAS V3.0 meta model the checker's derived schema has exactly the JSON attribute names, optionality, types, enumeration literals and concrete subclasses of the specification.", "quantifier": "all classes and attributes of the meta model", "why_tests_cant": "The schema is derived by reflection over inheritance; a forgotten or renamed attribute affects only documents using it.", "anchors": ["aas_test_engines/reflect.py: reflect", "aas_test_engines/reflect.py: _reflect", "aas_test_engines/reflect.py: _collect_subclasses", "aas_test_engines/test_cases/v3_0/model.py: Environment", "aas_test_engines/test_cases/v3_0/model.py: Submodel", "aas_test_engines/test_cases/v3_0/model.py: AssetAdministrationShell", "aas_test_engines/test_cases/v3_0/model.py: ConceptDescription"]}
{"id": "C41", "title": "Schema derivation terminates and is closed", "statement": "Deriving the schema of any family of possibly mutually recursive classes terminates, every type referred to is contained in the result, and every supported class is found by its name unambiguously.", "quantifier": "all finite families of class declarations with arbitrary recursion", "why_tests_cant": "Termination and closure over all recursive families.", "anchors": ["aas_test_engines/reflect.py: _reflect", "aas_test_engines/reflect.py: _resolve", "aas_test_engines/reflect.py: SymbolTable.lookup"]}
{"id": "C42", "title": "The meta model check never crashes on XML", "statement": "For every XML element tree and every meta model type the meta model check returns a report, never an exception.", "quantifier": "all XML element trees", "why_tests_cant": "Robustness for every input tree.", "anchors": ["aas_test_engines/test_cases/v3_0/adapter.py: XmlAdapter", "aas_test_engines/test_cases/v3_0/adapter.py: _get_model_type"]}
{"id": "C43", "title": "Text elements have no child elements", "statement": "An XML element standing for a string or boolean that contains child elements is reported as error.", "quantifier": "all XML element trees", "why_tests_cant": "Depends on the shape of nested content.", "anchors": ["aas_test_engines/test_cases/v3_0/adapter.py: _assert_no_children", "aas_test_engines/test_cases/v3_0/adapter.py: XmlAdapter.as_string", "aas_test_engines/test_cases/v3_0/adapter.py: XmlAdapter.as_bool"]}
{"id": "C44", "title": "Booleans in XML are xs:boolean", "statement": "An XML boolean is accepted exactly if its text is one of true, false, 1, 0 and it is interpreted accordingly.", "quantifier": "all element texts", "why_tests_cant": "Infinite set of texts.", "anchors": ["aas_test_engines/test_cases/v3_0/adapter.py: XmlAdapter.as_bool"]}
{"id": "C45", "title": "Duplicate XML elements are reported", "statement": "An XML element that occurs twice although the attribute is single-valued is reported as error.", "quantifier": "all XML element trees", "why_tests_cant": "Universal over documents.", "anchors": ["aas_test_engines/test_cases/v3_0/adapter.py: XmlAdapter.as_object"]}
{"id": "C46", "title": "JSON and XML serializations get the same verdict", "statement": "An environment serialized to JSON and to XML gives the same parsed object and the same verdict.", "quantifier": "all meta model conforming environments", "why_tests_cant": "Universal over environments.", "anchors": ["aas_test_engines/test_cases/v3_0/adapter.py: JsonAdapter", "aas_test_engines/test_cases/v3_0/adapter.py: XmlAdapter", "aas_test_engines/test_cases/v3_0/parse.py: parse"]}
{"id": "C47", "title": "Every object is checked against its constraints", "statement": "The constraints of each class are evaluated on every instance occurring at any depth in the document, and the verdict of the constraint check is ok exactly when no instance violates a constraint of severity ERROR.", "quantifier": "all environments, all positions", "why_tests_cant": "Instances occur at unbounded depth.", "anchors": ["aas_test_engines/test_cases/v3_0/parse.py: check_constraints"]}
{"id": "C48", "title": "Reference constraints (AASd-121..128)", "statement": "A reference is accepted exactly when it satisfies AASd-121, 122, 123, 124, 125, 126, 127 and 128 as published.", "quantifier": "all references: all key chains of any length", "why_tests_cant": "Key chains are unbounded.", "anchors": ["aas_test_engines/test_cases/v3_0/model.py: Reference.check_aasd_121", "aas_test_engines/test_cases/v3_0/model.py: Reference.check_aasd_122", "aas_test_engines/test_cases/v3_0/model.py: Reference.check_aasd_123", "aas_test_engines/test_cases/v3_0/model.py: Reference.check_aasd_124", "aas_test_engines/test_cases/v3_0/model.py: Reference.check_aasd_125", "aas_test_engines/test_cases/v3_0/model.py: Reference.check_aasd_126", "aas_test_engines/test_cases/v3_0/model.py: Reference.check_aasd_127", "aas_test_engines/test_cases/v3_0/model.py: Reference.check_aasd_128"]}
{"id": "C49", "title": "idShort constraints (AASd-117, 120, 022)", "statement": "Elements below a submodel, collection, entity, operation variable etc. need an idShort, children of lists must not have one, and idShorts are unique within their name space.", "quantifier": "all element trees", "why_tests_cant": "Unbounded trees.", "anchors": ["aas_test_engines/test_cases/v3_0/model.py: Submodel.check_aasd_117", "aas_test_engines/test_cases/v3_0/model.py: SubmodelElementCollection.check_aasd_117", "aas_test_engines/test_cases/v3_0/model.py: SubmodelElementCollection.check_aasd_022", "aas_test_engines/test_cases/v3_0/model.py: Submodel.check_aasd_022", "aas_test_engines/test_cases/v3_0/model.py: SubmodelElementList.check_aasd_120"]}
{"id": "C50", "title": "List constraints (AASd-107, 108, 109, 114)", "statement": "A submodel element list is accepted exactly when AASd-107, 108, 109 and 114 hold for its elements.", "quantifier": "all lists of elements of any length", "why_tests_cant": "Unbounded lists, pairwise conditions.", "anchors": ["aas_test_engines/test_cases/v3_0/model.py: SubmodelElementList.check_aasd_107", "aas_test_engines/test_cases/v3_0/model.py: SubmodelElementList.check_aasd_108", "aas_test_engines/test_cases/v3_0/model.py: SubmodelElementList.check_aasd_109", "aas_test_engines/test_cases/v3_0/model.py: SubmodelElementList.check_aasd_114"]}
{"id": "C51", "title": "Asset constraints (AASd-014, 131, 116, 133)", "statement": "Entities and asset information are accepted exactly when the published constraints on global and specific asset ids hold.", "quantifier": "all entities and asset information objects", "why_tests_cant": "All combinations.", "anchors": ["aas_test_engines/test_cases/v3_0/model.py: Entity.check_aasd_014", "aas_test_engines/test_cases/v3_0/model.py: AssetInformation.check_aasd_131", "aas_test_engines/test_cases/v3_0/model.py: AssetInformation.check_aasd_116", "aas_test_engines/test_cases/v3_0/model.py: SpecificAssetId.check_aasd_133"]}
{"id": "C52", "title": "Qualifier and extension constraints (AASd-021, 119, 129, 077)", "statement": "Templates qualifiers are only accepted on template submodels and their elements at any depth, as published.", "quantifier": "all submodels with elements at any depth", "why_tests_cant": "Unbounded depth.", "anchors": ["aas_test_engines/test_cases/v3_0/model.py: Submodel.check_aasd_119", "aas_test_engines/test_cases/v3_0/model.py: Submodel.check_aasd_129"]}
{"id": "C53", "title": "Administrative and operation constraints (AASd-005, 118, 134, 090, 002)", "statement": "The remaining structural constraints are accepted exactly as published.", "quantifier": "all objects of the classes concerned", "why_tests_cant": "All combinations.", "anchors": ["aas_test_engines/test_cases/v3_0/model.py: AdministrativeInformation.check_constraint_aasd_005", "aas_test_engines/test_cases/v3_0/model.py: HasSemantics.check_aasd_118", "aas_test_engines/test_cases/v3_0/model.py: Operation.check_aasd_134", "aas_test_engines/test_cases/v3_0/model.py: DataElement.check_aasd_090", "aas_test_engines/test_cases/v3_0/model.py: Referable.check_constraint_aasd_002"]}
{"id": "C54", "title": "Concept description constraints (AASc-3a-...)", "statement": "A concept description with IEC 61360 content that satisfies the published AASc constraints is accepted and one that violates a checked AASc constraint is rejected.", "quantifier": "all concept descriptions", "why_tests_cant": "All combinations of category, data type, definition, value list.", "anchors": ["aas_test_engines/test_cases/v3_0/model.py: ConceptDescription.check_aasc_3a_004", "aas_test_engines/test_cases/v3_0/model.py: ConceptDescription.check_aasc_3a_005", "aas_test_engines/test_cases/v3_0/model.py: ConceptDescription.check_aasc_3a_006", "aas_test_engines/test_cases/v3_0/model.py: ConceptDescription.check_aasc_3a_007", "aas_test_engines/test_cases/v3_0/model.py: ConceptDescription.check_aasc_3a_008", "aas_test_engines/test_cases/v3_0/model.py: DataSpecificationIec61360.check_aasc_3a_002", "aas_test_engines/test_cases/v3_0/model.py: DataSpecificationIec61360.check_aasc_3a_009", "aas_test_engines/test_cases/v3_0/model.py: DataSpecificationIec61360.check_aasc_3a_010"]}
{"id": "C55", "title": "XML-serializable text (AASd-130)", "statement": "Every string attribute accepted by the checker consists of XML 1.0 characters only.", "quantifier": "all strings in all string attributes", "why_tests_cant": "All strings.", "anchors": ["aas_test_engines/reflect.py: StringFormattedValue.__init__", "aas_test_engines/test_cases/v3_0/model.py: LangStringSet"]}
{"id": "C56", "title": "Values match their value type", "statement": "A property, range, qualifier or extension value is accepted exactly if it is in the lexical space the checker implements for its declared value type.", "quantifier": "all values and all 30 value types", "why_tests_cant": "All strings.", "anchors": ["aas_test_engines/test_cases/v3_0/model.py: validate", "aas_test_engines/test_cases/v3_0/model.py: Property.check_value_type", "aas_test_engines/test_cases/v3_0/model.py: Range.check_value_type_min", "aas_test_engines/test_cases/v3_0/model.py: Range.check_value_type_max", "aas_test_engines/test_cases/v3_0/model.py: Qualifier.check_value_type", "aas_test_engines/test_cases/v3_0/model.py: Extension.check_value_type", "aas_test_engines/data_types.py: validators"]}
{"id": "C57", "title": "Constraint checks never crash", "statement": "Evaluating the constraints on any document that passed the meta model check returns a report.", "quantifier": "all meta model conforming documents", "why_tests_cant": "All documents.", "anchors": ["aas_test_engines/test_cases/v3_0/model.py: OperationVariable.check_aasd_117", "aas_test_engines/test_cases/v3_0/model.py: AssetAdministrationShell.check_derived_from", "aas_test_engines/test_cases/v3_0/model.py: AssetAdministrationShell.check_submodels"]}
{"id": "C58", "title": "Element paths", "statement": "After a successful check every submodel element knows the idShort path by which it is addressed from its submodel.", "quantifier": "all submodels", "why_tests_cant": "Unbounded nesting.", "anchors": ["aas_test_engines/test_cases/v3_0/model.py: Submodel.post_parse", "aas_test_engines/test_cases/v3_0/model.py: SubmodelElementCollection._set_path", "aas_test_engines/test_cases/v3_0/model.py: SubmodelElementList._set_path"]}
{"id": "C59", "title": "xs:date", "statement": "For values without line feed (see C69) whose year has at most 4300 digits (see C70): a value is accepted as xs:date exactly if it has the XSD lexical form and denotes an existing day of the proleptic Gregorian calendar (no year 0, leap years respected, negative years allowed). For all other values the outcome is classified exactly as well.", "quantifier": "all strings", "why_tests_cant": "Infinite set of strings and years.", "anchors": ["aas_test_engines/data_types.py: is_xs_date", "aas_test_engines/data_types.py: _is_leap_year"]}
{"id": "C60", "title": "xs:dateTime and the UTC variant", "statement": "For values without line feed (see C69) whose year has at most 4300 digits (see C70): a value is accepted as xs:dateTime exactly if it has the XSD lexical form and its date part exists; the UTC variant in addition requires the zone Z, +00:00 or -00:00. For all other values the outcome is classified exactly as well.", "quantifier": "all strings", "why_tests_cant": "Infinite set of strings.", "anchors": ["aas_test_engines/data_types.py: is_xs_date_time", "aas_test_engines/data_types.py: is_xs_date_time_utc"]}
{"id": "C61", "title": "Gregorian fragments and times", "statement": "xs:gYear, gYearMonth, gMonth, gMonthDay, gDay and xs:time values are accepted exactly per XSD lexical form (gMonthDay only for existing days, and up to the line feed of C69).", "quantifier": "all strings", "why_tests_cant": "Infinite set of strings.", "anchors": ["aas_test_engines/data_types.py: validators", "aas_test_engines/data_types.py: is_xs_g_month_day"]}
{"id": "C62", "title": "xs:duration", "statement": "A value is accepted as xs:duration exactly if it has the XSD lexical form with at least one component and no dangling T.", "quantifier": "all strings", "why_tests_cant": "Infinite set of strings.", "anchors": ["aas_test_engines/data_types.py: validators"]}
{"id": "C63", "title": "Bounded integers", "statement": "For each integer type the accepted numerals denote exactly the integers of the XSD value range.", "quantifier": "all numerals of any length", "why_tests_cant": "Unbounded numerals, boundary values per type.", "anchors": ["aas_test_engines/data_types.py: _is_bounded_integer", "aas_test_engines/data_types.py: validators"]}
{"id": "C64", "title": "Integer literals are XSD literals", "statement": "Every string accepted for an integer type is an XSD integer literal (optional sign and ASCII digits).", "quantifier": "all strings", "why_tests_cant": "All strings.", "anchors": ["aas_test_engines/data_types.py: _is_bounded_integer"]}
{"id": "C65", "title": "xs:decimal, xs:float, xs:double", "statement": "Every XSD literal in range is accepted and values out of range are rejected.", "quantifier": "all literals", "why_tests_cant": "Unbounded literals and rounding at the border.", "anchors": ["aas_test_engines/data_types.py: is_decimal", "aas_test_engines/data_types.py: is_float", "aas_test_engines/data_types.py: is_double"]}
{"id": "C66", "title": "xs:boolean, xs:hexBinary, xs:base64Binary", "statement": "Values are accepted exactly per XSD lexical form.", "quantifier": "all strings", "why_tests_cant": "All strings.", "anchors": ["aas_test_engines/data_types.py: validators", "aas_test_engines/data_types.py: is_hex_binary", "aas_test_engines/data_types.py: is_base64_binary"]}
{"id": "C67", "title": "Language tags", "statement": "A language is accepted exactly if it is a well-formed RFC 5646 language tag.", "quantifier": "all strings", "why_tests_cant": "Regular language over all strings.", "anchors": ["aas_test_engines/data_types.py: is_bcp_lang_string"]}
{"id": "C68", "title": "xs:anyURI", "statement": "A value is accepted as xs:anyURI exactly if it is an RFC 3987 IRI reference.", "quantifier": "all strings", "why_tests_cant": "Regular language over all strings.", "anchors": ["aas_test_engines/data_types.py: is_any_uri"]}
{"id": "C69", "title": "No trailing garbage", "statement": "No validator accepts a value followed by additional characters such as a line feed.", "quantifier": "all strings and all value types", "why_tests_cant": "All strings.", "anchors": ["aas_test_engines/data_types.py: is_xs_date", "aas_test_engines/data_types.py: is_any_uri", "aas_test_engines/data_types.py: is_bcp_lang_string"]}
{"id": "C70", "title": "Every value type has a validator", "statement": "Validation is defined for each of the 30 XSD types of the meta model and never raises.", "quantifier": "all value types, all strings", "why_tests_cant": "All strings.", "anchors": ["aas_test_engines/data_types.py: validators", "aas_test_engines/data_types.py: DataTypeDefXsd", "aas_test_engines/test_cases/v3_0/model.py: validate"]}
{"id": "C71", "title": "Template cardinalities", "statement": "For a submodel with a known template, an element whose cardinality violates the template is an ERROR at every nesting level, and a submodel satisfying the template is accepted.", "quantifier": "all submodels and all template definitions", "why_tests_cant": "Unbounded element lists.", "anchors": ["aas_test_engines/test_cases/v3_0/parse_submodel.py: _parse_elements", "aas_test_engines/test_cases/v3_0/parse_submodel.py: _unwrap"]}
{"id": "C72", "title": "Elements unknown to a template are ignored", "statement": "Elements whose semantic id does not occur in the template have no influence on the verdict of the template check.", "quantifier": "all submodels, all additional elements at all positions", "why_tests_cant": "All insertions.", "anchors": ["aas_test_engines/test_cases/v3_0/parse_submodel.py: _parse_elements"]}
{"id": "C73", "title": "Template check never crashes", "statement": "Checking an environment that passed meta model and constraint check against the submodel templates returns a report.", "quantifier": "all conforming environments", "why_tests_cant": "All environments.", "anchors": ["aas_test_engines/test_cases/v3_0/parse_submodel.py: parse_submodel", "aas_test_engines/test_cases/v3_0/parse_submodel.py: _parse_date", "aas_test_engines/test_cases/v3_0/parse_submodel.py: _parse_element_collection"]}
{"id": "C74", "title": "Unknown templates are mentioned", "statement": "A submodel with a semantic id unknown to the checker is mentioned in the report by a WARNING.", "quantifier": "all environments", "why_tests_cant": "All environments.", "anchors": ["aas_test_engines/test_cases/v3_0/submodel_templates.py: parse_submodel_templates"]}
{"id": "C75", "title": "A dry run sends nothing", "statement": "With the dry option no HTTP request is sent for any suite and filter.", "quantifier": "all clients, servers, suites and filters", "why_tests_cant": "Universal over suites.", "anchors": ["aas_test_engines/test_cases/v3_0/api.py: execute_tests"]}
{"id": "C76", "title": "Filtered operations are not exercised", "statement": "An operation that the filter does not select causes no request, and every selected operation is executed.", "quantifier": "all filters, servers and suites", "why_tests_cant": "All filters.", "anchors": ["aas_test_engines/test_cases/v3_0/api.py: execute_tests", "aas_test_engines/test_cases/v3_0/api.py: _execute"]}
{"id": "C77", "title": "Server errors are critical", "statement": "A response with status 500 or above makes the test and the verdict CRITICAL; an unexpected status is an ERROR; the test passes only if status is expected and the body conforms to the declared type.", "quantifier": "all responses of the server", "why_tests_cant": "All possible responses.", "anchors": ["aas_test_engines/test_cases/v3_0/interfaces/shared.py: invoke_and_decode"]}
{"id": "C78", "title": "Negative tests", "statement": "A call with invalid arguments is counted as correctly rejected exactly if the server answers with the expected client error and a conforming error body.", "quantifier": "all responses", "why_tests_cant": "All possible responses.", "anchors": ["aas_test_engines/test_cases/v3_0/api.py: _execute", "aas_test_engines/test_cases/v3_0/generate.py: generate_calls"]}
{"id": "C79", "title": "Test statistics add up", "statement": "The counted valid and invalid calls equal the number of executed positive and negative tests, for every server behaviour.", "quantifier": "all server behaviours including changing state", "why_tests_cant": "All schedules of responses.", "anchors": ["aas_test_engines/test_cases/v3_0/api.py: _execute", "aas_test_engines/test_cases/v3_0/api.py: execute_tests"]}
{"id": "C80", "title": "Unreachable server", "statement": "If the server is not reachable the result is CRITICAL, exactly one request is attempted and no test is executed.", "quantifier": "all suites and clients", "why_tests_cant": "All suites.", "anchors": ["aas_test_engines/test_cases/v3_0/api.py: _check_server", "aas_test_engines/test_cases/v3_0/api.py: execute_tests"]}
{"id": "C81", "title": "Tests are isolated", "statement": "A failing test of an operation does not prevent the remaining tests of this and other operations from being executed and reported.", "quantifier": "all server behaviours that provoke no foreign exception", "why_tests_cant": "All combinations of failing tests.", "anchors": ["aas_test_engines/test_cases/v3_0/api.py: _execute"]}
{"id": "C82", "title": "Any server behaviour yields a report", "statement": "For every sequence of server responses the server check returns a report.", "quantifier": "all server behaviours", "why_tests_cant": "All responses.", "anchors": ["aas_test_engines/test_cases/v3_0/api.py: execute_tests", "aas_test_engines/test_cases/v3_0/api.py: _execute"]}
{"id": "C83", "title": "Pagination is followed", "statement": "The pagination test passes the received cursor on to the server.", "quantifier": "all servers", "why_tests_cant": "All servers.", "anchors": ["aas_test_engines/test_cases/v3_0/interfaces/shared.py: PaginationTests.test_pagination"]}
{"id": "C84", "title": "Generated invalid arguments are invalid", "statement": "Every argument value generated for a negative test is invalid for its type: not an enumeration literal, not decodable as base64url, negative limit, not a boolean.", "quantifier": "all operations and argument types", "why_tests_cant": "All enumerations.", "anchors": ["aas_test_engines/test_cases/v3_0/generate.py: generate_invalid_values", "aas_test_engines/test_cases/v3_0/generate.py: generate_calls"]}
{"id": "C85", "title": "Exit code reflects the verdict", "statement": "The command line tool exits with 0 exactly when the verdict is ok.", "quantifier": "all inputs and options that reach a verdict", "why_tests_cant": "All reports.", "anchors": ["aas_test_engines/__main__.py: main", "aas_test_engines/__main__.py: run_file_test", "aas_test_engines/__main__.py: run_api_test"]}
{"id": "C86", "title": "Suite selection", "statement": "A suite is selected by any substring that occurs in exactly one suite name; otherwise the tool terminates with a non-zero exit code without sending requests.", "quantifier": "all strings", "why_tests_cant": "All strings.", "anchors": ["aas_test_engines/__main__.py: run_api_test"]}
{"id": "C87", "title": "Header arguments", "statement": "A header argument is split at its first ':' into name and value with surrounding blanks removed and rejected if it has no ':'.", "quantifier": "all strings", "why_tests_cant": "All strings.", "anchors": ["aas_test_engines/__main__.py: _parse_header_value"]}
{"id": "C88", "title": "Documented commands work", "statement": "Each documented command of the command line tool terminates with a verdict or a message, not with an unhandled exception.", "quantifier": "all commands and options", "why_tests_cant": "All options.", "anchors": ["aas_test_engines/__main__.py: run_api_test", "aas_test_engines/__main__.py: generate_files"]}
{"id": "C89", "title": "The XML meta model check accepts exactly the XML serialization", "statement": "The meta model check accepts an XML element tree exactly if it conforms to the XML serialization of the meta model, the object it returns has the content of the tree, and every finding points to a position that does not conform.", "quantifier": "all XML element trees", "why_tests_cant": "Unbounded trees of every shape.", "anchors": ["aas_test_engines/test_cases/v3_0/adapter.py: XmlAdapter", "aas_test_engines/test_cases/v3_0/parse.py: parse", "aas_test_engines/test_cases/v3_0/parse.py: parse_and_check"]}
{"id": "C91", "title": "Command lines are read as documented", "statement": "A command line that consists of the positional arguments and of options spelled '--option value', '--option=value', '--flag' or '--header value...' in any order gives each setting the value of its last occurrence; the first value that cannot be read ends the program with status 2, and reading always terminates.", "quantifier": "all command lines of the three commands", "why_tests_cant": "Unbounded number, order and contents of arguments.", "anchors": ["aas_test_engines/__main__.py: run_file_test", "aas_test_engines/__main__.py: run_api_test", "aas_test_engines/__main__.py: generate_files"]}
{"id": "C92", "title": "The JSON output is a JSON text of the report", "statement": "With --output json the tool prints exactly one line that is a JSON text (RFC 8259); its value is the report with all messages, levels and sub results, provided that no message contains a high surrogate followed by a low surrogate, and different such reports have different texts.", "quantifier": "all reports, all messages of code points", "why_tests_cant": "Unbounded nesting and all characters in messages.", "anchors": ["aas_test_engines/__main__.py: run_file_test", "aas_test_engines/__main__.py: run_api_test", "aas_test_engines/result.py: to_dict"]}
{"id": "C90", "title": "The server check only requests endpoints of the tested service specification", "statement": "Every request of the check of a server is a GET request to the address itself or to a published endpoint of the chosen service specification (IDTA-01002-3-0), with identifiers in base64url and with query parameters of this endpoint only; the address, the verification of certificates and the removed prefix are the configured ones.", "quantifier": "all servers, clients, configurations and runs, also those that end with an exception", "why_tests_cant": "Requests depend on all answers of the server; needs a server for every history.", "anchors": ["aas_test_engines/test_cases/v3_0/interfaces/shared.py", "aas_test_engines/http.py: send", "aas_test_engines/test_cases/v3_0/api.py: available_suites"]}
{"id": "C93", "title": "Every report of the tool is coherent and decides the exit status", "statement": "Whatever file or server is checked, the report is built by creating entries and appending finished reports: no entry is less severe than an entry below it, the exit status is 0 exactly if no entry anywhere in the report has level ERROR or CRITICAL, and the printed JSON text can be read back to the same report.", "quantifier": "all command lines, files of all formats, servers", "why_tests_cant": "All contents of files and all answers of servers.", "anchors": ["aas_test_engines/result.py: append", "aas_test_engines/file.py", "aas_test_engines/test_cases/v3_0/parse.py", "aas_test_engines/__main__.py"]}
{"id": "C94", "title": "Every test of a server sends the request that its title promises", "statement": "The check of an operation sends, after the requests of its setup, one request for each negative test, with exactly the wrong value in the query or path, and for each positive test a request to the path of the operation with exactly the query parameters that the test is about; nothing else is sent, and the entries of the report are those of the tests in the same order.", "quantifier": "all servers, clients, filters and runs that end with a report", "why_tests_cant": "Requests depend on all answers of the server; needs a server for every history.", "anchors": ["aas_test_engines/test_cases/v3_0/interfaces/shared.py", "aas_test_engines/test_cases/v3_0/interfaces/aas_repo.py", "aas_test_engines/test_cases/v3_0/interfaces/submodel_repo.py", "aas_test_engines/test_cases/v3_0/api.py"]}
{"id": "C95", "title": "Every test of a server gives the verdict that its claim deserves", "statement": "A positive test whose operation has checked answers fails exactly if the answer is not a success with a JSON value that is accepted as of the type of the operation and of which the claim of the test holds (number of results, identifier that was asked for, listed profile, ...), where two claims only give warnings; without a remark it passes exactly if the check of the value has nothing to remark and the claim holds. A test that has nothing to ask for is a warning. A negative test passes exactly if the server refuses the request. An answer with a server error is critical.", "quantifier": "all servers, clients, filters and runs that end with a report", "why_tests_cant": "Needs wrong servers for every claim of every test of every operation.", "anchors": ["aas_test_engines/test_cases/v3_0/interfaces/shared.py", "aas_test_engines/test_cases/v3_0/interfaces/aas_repo.py", "aas_test_engines/test_cases/v3_0/interfaces/submodel_repo.py", "aas_test_engines/test_cases/v3_0/api.py"]}
{"id": "C96", "title": "Exactly the compliant servers pass the check", "statement": "A run against a server ends without errors (exit status 0) exactly if the exchanges are those with a compliant server: it answers the first request; for each chosen operation, in order, the requests of the setup get successes with values of the published types that are accepted, each request with a wrong value is rejected, each positive test gets a success with an accepted value of which its claim holds (where nothing can be asked for, nothing is sent), and no other request is sent.", "quantifier": "all servers, clients, filters, service specifications and runs that end with a report; all command lines of the tool", "why_tests_cant": "Soundness and completeness of the verdict over all servers: needs every server and every history of answers.", "anchors": ["aas_test_engines/test_cases/v3_0/api.py", "aas_test_engines/test_cases/v3_0/interfaces/shared.py", "aas_test_engines/test_cases/v3_0/interfaces/aas_repo.py", "aas_test_engines/test_cases/v3_0/interfaces/submodel_repo.py", "aas_test_engines/__main__.py"]}
{"id": "C97", "title": "A release has one version", "statement": "The check of version strings passes exactly if the commit has one tag \"vX\", X is a version of three numbers, pyproject.toml has the line version = \"X\" and __init__.py has the line return \"X\"; otherwise it stops with the complaint that names the first of these that fails.", "quantifier": "all outputs of git and all contents of both files", "why_tests_cant": "The script is not tested at all; its inputs are arbitrary texts (line breaks, digits of other scripts, several tags).", "anchors": ["bin/check_version_strings.py", "pyproject.toml", "aas_test_engines/__init__.py"]}
{"id": "C98", "title": "All code of the README is executed", "statement": "The check of the README executes each python block that is not marked with no-check, in order, and nothing else; it passes exactly if all of them work, and complains exactly about a marker within a block.", "quantifier": "all README texts and all behaviours of the snippets", "why_tests_cant": "The script is not tested at all; its input is an arbitrary text.", "anchors": ["bin/check_readme.py", "README.md"]}
