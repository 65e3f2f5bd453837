{
 "claims": [
  {
   "property": "C01",
   "status": "proved",
   "theorems": [
    "C01_verdict_is_worst",
    "C01_ok_iff_no_error",
    "C01_ok_iff_all_entries"
   ],
   "note": "for every report assembled by creating and appending; the level of the root is the maximum of the creation levels"
  },
  {
   "property": "C02",
   "status": "proved",
   "theorems": [
    "C02_append"
   ],
   "note": ""
  },
  {
   "property": "C03",
   "status": "proved",
   "theorems": [
    "C03_roundtrip_iff",
    "C03_assembled_roundtrip",
    "C03_always_readable"
   ],
   "note": ""
  },
  {
   "property": "C04",
   "status": "partial",
   "theorems": [
    "C04_late_finding_refuted",
    "C04_bottom_up"
   ],
   "note": "REFUTED as stated: a child that is appended first and extended later does not lift its parent. Proved for bottom-up assembly."
  },
  {
   "property": "C05",
   "status": "proved",
   "theorems": [
    "C05_text_report"
   ],
   "note": ""
  },
  {
   "property": "C06",
   "status": "proved",
   "theorems": [
    "C06_html_well_formed",
    "C06_html_page"
   ],
   "note": "the text of data/template.html is a parameter with a single placeholder"
  },
  {
   "property": "C07",
   "status": "proved",
   "theorems": [
    "C07_no_injection",
    "C07_every_message_shown_escaped"
   ],
   "note": ""
  },
  {
   "property": "C08",
   "status": "proved",
   "theorems": [
    "C08_stack_restored",
    "C08_stack_restored_toplevel"
   ],
   "note": ""
  },
  {
   "property": "C09",
   "status": "proved",
   "theorems": [
    "C09_abort_is_local"
   ],
   "note": ""
  },
  {
   "property": "C10",
   "status": "proved",
   "theorems": [
    "C10_catch_all",
    "C10_catch_all_is_critical",
    "C10_propagated_unchanged"
   ],
   "note": ""
  },
  {
   "property": "C11",
   "status": "proved",
   "theorems": [
    "C11_filter_selects",
    "C11_filter_selects_glob"
   ],
   "note": ""
  },
  {
   "property": "C12",
   "status": "proved",
   "theorems": [
    "C12_filter_syntax"
   ],
   "note": ""
  },
  {
   "property": "C13",
   "status": "proved",
   "theorems": [
    "C13_glob",
    "C13_glob_without_negation",
    "C13_odd_class_refuted"
   ],
   "note": "the excluded odd classes are shown to deviate by C13_odd_class_refuted"
  },
  {
   "property": "C14",
   "status": "proved",
   "theorems": [
    "C14_query_roundtrip",
    "C14_always_possible"
   ],
   "note": ""
  },
  {
   "property": "C15",
   "status": "proved",
   "theorems": [
    "C15_host_and_path"
   ],
   "note": ""
  },
  {
   "property": "C16",
   "status": "partial",
   "theorems": [
    "C16_query_refuted",
    "C16_prefix_removed_exactly",
    "C16_prefix_removed_no_query"
   ],
   "note": "REFUTED as stated: the prefix itself followed by a query is not removed. The exact behaviour is proved."
  },
  {
   "property": "C17",
   "status": "partial",
   "theorems": [
    "C17_accumulate_refuted",
    "C17_descend_exact",
    "C17_descend_once"
   ],
   "note": "REFUTED as stated: a second descent forgets the first prefix. The exact behaviour is proved."
  },
  {
   "property": "C18",
   "status": "partial",
   "theorems": [
    "C18_headers_refuted",
    "C18_headers_exact",
    "C18_rest_unchanged"
   ],
   "note": "REFUTED as stated: additional headers are never sent. The exact behaviour is proved."
  },
  {
   "property": "C19",
   "status": "proved",
   "theorems": [
    "C19_base64url",
    "C19_injective",
    "C19_only_failure"
   ],
   "note": ""
  },
  {
   "property": "C20",
   "status": "proved",
   "theorems": [
    "C20_normpath",
    "C20_unique"
   ],
   "note": "The result equals left-to-right resolution of the trimmed path; the specification determines it."
  },
  {
   "property": "C21",
   "status": "partial",
   "theorems": [
    "C21_idempotent_refuted",
    "C21_idempotent",
    "C21_idempotent_no_blanks"
   ],
   "note": "REFUTED as stated: './ a' is normalized to ' a' and then to 'a'. Proved when the result has no surrounding blanks, in particular for every path without blanks."
  },
  {
   "property": "C22",
   "status": "proved",
   "theorems": [
    "C22_split"
   ],
   "note": ""
  },
  {
   "property": "C23",
   "status": "proved",
   "theorems": [
    "C23_scan_terminates"
   ],
   "note": "One level of recursion per member is enough fuel; more fuel gives the same result. The interpreter's recursion limit is not modelled."
  },
  {
   "property": "C24",
   "status": "proved",
   "theorems": [
    "C24_scanned_once"
   ],
   "note": ""
  },
  {
   "property": "C25",
   "status": "proved",
   "theorems": [
    "C25_dangling"
   ],
   "note": ""
  },
  {
   "property": "C26",
   "status": "partial",
   "theorems": [
    "C26_top_level_refuted",
    "C26_nested_parts_scanned"
   ],
   "note": "REFUTED as stated: for a part at the top level '/_rels/x.rels' is looked up instead of '_rels/x.rels'. Proved for all parts reachable through parts in directories."
  },
  {
   "property": "C27",
   "status": "partial",
   "theorems": [
    "C27_broken_package_refuted",
    "C27_only_unreadable_members",
    "C27_unexpected_contents"
   ],
   "note": "REFUTED as stated: a content type or relationship file that is not well-formed XML raises ParseError. Proved: unreadable or not well-formed members are the only source of exceptions, and well-formed but unexpected contents give an ERROR."
  },
  {
   "property": "C28",
   "status": "proved",
   "theorems": [
    "C28_deprecated_types",
    "C28_warning_recorded"
   ],
   "note": ""
  },
  {
   "property": "C29",
   "status": "partial",
   "theorems": [
    "C29_skipped_refuted",
    "C29_warnings",
    "C29_spec_checked"
   ],
   "note": "REFUTED as stated: if the origin is first reached through another relationship its files are not checked (the report claims that no aas spec was found). Proved when the origin relationship is the first that leads to the origin; missing and ambiguous files are announced by warnings."
  },
  {
   "property": "C30",
   "status": "proved",
   "theorems": [
    "C30_structure_first",
    "C30_structure_crash",
    "C30_verdict"
   ],
   "note": ""
  },
  {
   "property": "C31",
   "status": "proved",
   "theorems": [
    "C31_unparsable"
   ],
   "note": ""
  },
  {
   "property": "C32",
   "status": "partial",
   "theorems": [
    "C32_xml_file_refuted",
    "C32_json_model_type",
    "C32_xml_data_model_type"
   ],
   "note": "REFUTED for XML files: check_xml_file does not pass the model type on. Proved for JSON and for XML data."
  },
  {
   "property": "C33",
   "status": "partial",
   "theorems": [
    "C33_refuted",
    "C33_exact",
    "C33_partial",
    "C33_verdict"
   ],
   "note": "REFUTED: the complete check of an accepted document raises AttributeError for every model type but Environment and AssetAdministrationShell, and for shells that refer to submodels (C33_refuted). C33_exact: given that the meta model and constraint checks return (see C57), exactly these cases and environments where the template check gives up raise. C33_partial: environments without such submodels, and rejected documents, always get a report. C33_verdict: the verdict of the complete check."
  },
  {
   "property": "C34",
   "status": "partial",
   "theorems": [
    "C34_sound",
    "C34_names",
    "C34_other_names",
    "C34_specified_refuted",
    "C34_model_type_refuted"
   ],
   "note": "REFUTED for the specified meta model: an accepted document may carry a lastUpdate that is not UTC, and a modelType of a type without subtypes may be any value. C34_sound proves acceptance implies conformance to the meta model as transcribed in the checked table, for every type name and every JSON document."
  },
  {
   "property": "C35",
   "status": "partial",
   "theorems": [
    "C35_complete",
    "C35_specified",
    "C35_specified_refuted"
   ],
   "note": "REFUTED for one value of the specified meta model: a Blob with an empty value is rejected. C35_complete and C35_specified prove that every other conforming document is accepted without a finding and gives the object with the values of the document."
  },
  {
   "property": "C36",
   "status": "proved",
   "theorems": [
    "C36_total"
   ],
   "note": "The meta model check of any JSON document under any type name of the symbol table returns; it raises no exception."
  },
  {
   "property": "C37",
   "status": "proved",
   "theorems": [
    "C37_positions"
   ],
   "note": ""
  },
  {
   "property": "C38",
   "status": "proved",
   "theorems": [
    "C38_order",
    "C38_permutations"
   ],
   "note": ""
  },
  {
   "property": "C39",
   "status": "proved",
   "theorems": [
    "C39_executed",
    "C39_executed_verdict",
    "C39_skipped"
   ],
   "note": ""
  },
  {
   "property": "C40",
   "status": "partial",
   "theorems": [
    "C40_meta_model",
    "C40_unchanged",
    "C40_refuted",
    "C40_texts_refuted"
   ],
   "note": "REFUTED: the derived schema differs from the AAS V3.0 meta model: EventElement is a concrete class, lastUpdate takes any xs:dateTime, Blob/value is not restricted to base64 (C40_refuted, C40_texts_refuted). True: the schema is exactly aas_v3_0_checked, i.e. the specified meta model with the listed differences (C40_meta_model); all other classes are as specified (C40_unchanged)."
  },
  {
   "property": "C41",
   "status": "proved",
   "theorems": [
    "C41_terminates",
    "C41_total",
    "C41_closed",
    "C41_complete",
    "C41_found",
    "C41_unknown",
    "C41_ambiguous"
   ],
   "note": "For all programs (lists of class statements whose bases are defined before). Unambiguous lookup presupposes that no two reachable classes share a name; otherwise lookup is refused (C41_ambiguous)."
  },
  {
   "property": "C42",
   "status": "partial",
   "theorems": [
    "C42_refuted",
    "C42_only",
    "C42_total",
    "C42_namespace"
   ],
   "note": "REFUTED: an element whose qualified name has at most 32 characters, e.g. <property/> without namespace inside submodelElements, raises IndexError (C42_refuted). True part: IndexError is the only exception, and it needs such an element (C42_only, C42_total); trees in the AAS namespace always give a report (C42_namespace)."
  },
  {
   "property": "C43",
   "status": "partial",
   "theorems": [
    "C43_refuted",
    "C43_nested_partial"
   ],
   "note": "REFUTED: child elements of a text element are accepted if the first one has no children itself (truth value of an Element). True part: reported if the first child has children."
  },
  {
   "property": "C44",
   "status": "partial",
   "theorems": [
    "C44_refuted",
    "C44_reading_partial"
   ],
   "note": "REFUTED: every text is accepted as a boolean, and 1 is read as false. True part: the boolean is true exactly if the text is \"true\"."
  },
  {
   "property": "C45",
   "status": "partial",
   "theorems": [
    "C45_refuted",
    "C45_last_partial"
   ],
   "note": "REFUTED: of several elements with the same name the last one is taken, without finding. C45_last_partial states which one is read."
  },
  {
   "property": "C46",
   "status": "proved",
   "theorems": [
    "C46_same_object",
    "C46_same_verdict",
    "C46_exists"
   ],
   "note": "For documents in both serializations (SerialDoc, which also covers invalid contents): same object, same positions of findings, same verdict, or the same exception; every conforming JSON document has an XML serialization."
  },
  {
   "property": "C47",
   "status": "proved",
   "theorems": [
    "C47_json",
    "C47_xml",
    "C47_findings",
    "C47_raises_violated",
    "C47_json_objects",
    "C47_xml_objects"
   ],
   "note": "Accepted exactly if the meta model check finds nothing and every ERROR constraint of the table holds for every object at every position of the document. Where a check raises (see C57) the constraint is violated, so the document is not accepted. The XML position theorem assumes that tags are well named (otherwise the meta model check raises, C42)."
  },
  {
   "property": "C48",
   "status": "partial",
   "theorems": [
    "C48_refuted",
    "C48_partial",
    "C48_references",
    "C48_instances",
    "C48_all_checks"
   ],
   "note": "REFUTED: the position in an AAS reference to a list element is read with int(), so \"1_0\" is accepted. C48_references: exact for all references with positions as int() reads them; C48_partial: exact as published for positions without underscore, sign, blank or non-ASCII digit."
  },
  {
   "property": "C49",
   "status": "partial",
   "theorems": [
    "C49_refuted",
    "C49_submodel",
    "C49_collection",
    "C49_entity",
    "C49_annotations",
    "C49_variable",
    "C49_list"
   ],
   "note": "REFUTED: idShorts of the statements of an entity and of the annotations of a relationship need not be unique. The other theorems are exact for each class."
  },
  {
   "property": "C50",
   "status": "partial",
   "theorems": [
    "C50_refuted",
    "C50_partial",
    "C50_lists"
   ],
   "note": "REFUTED: a list of DataElement with a property is rejected although it satisfies the constraints, and an empty list of Property without a value type is accepted although AASd-109 is violated. C50_lists: exact description of what is checked; C50_partial: exact as published for non-empty lists of a leaf element type."
  },
  {
   "property": "C51",
   "status": "partial",
   "theorems": [
    "C51_refuted",
    "C51_partial",
    "C51_entity",
    "C51_asset_information",
    "C51_specific_asset_id"
   ],
   "note": "REFUTED (AASd-116): the name globalAssetId is rejected even with the right value, and GLOBALASSETID is accepted with the wrong one. AASd-014, 131 and 133 are exact. C51_partial: what is accepted satisfies AASd-116 unless the name is written in another case."
  },
  {
   "property": "C52",
   "status": "partial",
   "theorems": [
    "C52_refuted",
    "C52_submodel"
   ],
   "note": "REFUTED: template qualifiers below the first level, AASd-021 and AASd-077 are not checked. C52_submodel: exact for what is checked."
  },
  {
   "property": "C53",
   "status": "proved",
   "theorems": [
    "C53_administration",
    "C53_semantics",
    "C53_operation",
    "C53_category",
    "C53_id_short"
   ],
   "note": "AASd-005, 118, 134, 090 and 002."
  },
  {
   "property": "C54",
   "status": "partial",
   "theorems": [
    "C54_refuted",
    "C54_content",
    "C54_concept",
    "C54_sound"
   ],
   "note": "REFUTED: a concept description of category PROPERTY is rejected whatever its data type, and the language tag \"En\" is not recognised as English. C54_content and C54_concept: exact for what is checked; C54_sound: a violated AASc-3a-004 to 007 is rejected."
  },
  {
   "property": "C55",
   "status": "partial",
   "theorems": [
    "C55_refuted",
    "C55_partial"
   ],
   "note": "REFUTED: the text of a language string may contain control characters. C55_partial: all other texts of an accepted JSON document are XML characters."
  },
  {
   "property": "C56",
   "status": "proved",
   "theorems": [
    "C56_property",
    "C56_range",
    "C56_qualifier",
    "C56_extension",
    "C56_types"
   ],
   "note": "The lexical space is the one of validate_xsd, which C59 to C66 relate to XSD."
  },
  {
   "property": "C57",
   "status": "partial",
   "theorems": [
    "C57_refuted",
    "C57_exact",
    "C57_causes",
    "C57_partial"
   ],
   "note": "REFUTED: AttributeError for operation variables without idShort, derivedFrom and submodels that are not model references. C57_exact and C57_causes characterise all exceptions; C57_partial: no exception otherwise."
  },
  {
   "property": "C58",
   "status": "partial",
   "theorems": [
    "C58_refuted",
    "C58_partial",
    "C58_unique",
    "C58_named"
   ],
   "note": "REFUTED: elements below an Entity, an Operation or an AnnotatedRelationshipElement have no path. C58_partial: all elements reached through collections and lists, at any depth, know their path, in JSON and XML documents; C58_unique and C58_named: in accepted documents the path identifies the element and has no gaps."
  },
  {
   "property": "C59",
   "status": "proved",
   "theorems": [
    "C59_date",
    "C59_date_exact"
   ],
   "note": ""
  },
  {
   "property": "C60",
   "status": "proved",
   "theorems": [
    "C60_date_time",
    "C60_date_time_utc",
    "C60_date_time_exact",
    "C60_date_time_utc_exact"
   ],
   "note": ""
  },
  {
   "property": "C61",
   "status": "proved",
   "theorems": [
    "C61_g_year",
    "C61_g_year_month",
    "C61_g_month",
    "C61_g_day",
    "C61_time",
    "C61_g_month_day",
    "C61_g_month_day_exact"
   ],
   "note": ""
  },
  {
   "property": "C62",
   "status": "proved",
   "theorems": [
    "C62_duration"
   ],
   "note": ""
  },
  {
   "property": "C63",
   "status": "partial",
   "theorems": [
    "C63_ranges_refuted",
    "C63_ranges",
    "C63_long_numerals"
   ],
   "note": "REFUTED for numerals of more than 4300 digits: python's int refuses them, so they are rejected even if in range. C63_ranges is the exact statement up to that length."
  },
  {
   "property": "C64",
   "status": "partial",
   "theorems": [
    "C64_literals_refuted",
    "C64_accepted_exact",
    "C64_plain_literals"
   ],
   "note": "REFUTED: 1_0, blanks around the number and non-ASCII decimals are accepted. C64_accepted_exact says exactly what is accepted; C64_plain_literals is the property for texts without blanks, underscores and non-ASCII characters."
  },
  {
   "property": "C65",
   "status": "partial",
   "theorems": [
    "C65_range_refuted",
    "C65_double",
    "C65_float",
    "C65_out_of_range",
    "C65_in_range",
    "C65_special",
    "C65_decimal"
   ],
   "note": "REFUTED: the bounds are compared with < so that the largest double and float are rejected. C65_double and C65_float give the exact border for all literals."
  },
  {
   "property": "C66",
   "status": "partial",
   "theorems": [
    "C66_binary_refuted",
    "C66_boolean",
    "C66_hex_exact",
    "C66_hex",
    "C66_base64_complete",
    "C66_base64_alphabet",
    "C66_base64_exact"
   ],
   "note": "REFUTED for hexBinary (white space between bytes) and base64Binary (foreign characters are skipped); the boolean part holds exactly. The accepted hex texts are characterized exactly; all XSD base64 literals are accepted. C66_base64_exact says exactly which texts are accepted as base64Binary: foreign characters are skipped and everything behind a complete padding is ignored."
  },
  {
   "property": "C67",
   "status": "partial",
   "theorems": [
    "C67_tags_refuted",
    "C67_tags",
    "C67_tags_exact",
    "C67_tags_sound"
   ],
   "note": "REFUTED: grandfathered tags are only accepted as spelled in the registry although tags are case-insensitive. C67_tags is exact apart from this."
  },
  {
   "property": "C68",
   "status": "partial",
   "theorems": [
    "C68_iri_refuted",
    "C68_iri_exact",
    "C68_iri_sound",
    "C68_iri_complete"
   ],
   "note": "REFUTED: abbreviated IPv6 addresses are rejected. C68_iri_exact characterizes the accepted texts; C68_iri_sound holds for all, C68_iri_complete for IRIs without IPv6 address."
  },
  {
   "property": "C69",
   "status": "partial",
   "theorems": [
    "C69_line_feed_refuted",
    "C69_no_line_feed"
   ],
   "note": "REFUTED: $ matches before a final line feed and int, float, Decimal strip white space. C69_no_line_feed is the property for the types checked with fullmatch."
  },
  {
   "property": "C70",
   "status": "partial",
   "theorems": [
    "C70_total_refuted",
    "C70_members",
    "C70_total",
    "C70_string"
   ],
   "note": "REFUTED: a date with a year of more than 4300 digits raises a ValueError. C70_total: nothing else raises, and every type has a validator (C70_members)."
  },
  {
   "property": "C71",
   "status": "proved",
   "theorems": [
    "C71_decides",
    "C71_accepts",
    "C71_all_templates",
    "C71_levels",
    "C71_environment"
   ],
   "note": "Runs that raise have no verdict (C73 says which); collections may be SubmodelElementLists. C71_all_templates and C71_levels hold for every template definition in which no class uses a semantic id twice."
  },
  {
   "property": "C72",
   "status": "partial",
   "theorems": [
    "C72_refuted",
    "C72_partial"
   ],
   "note": "REFUTED: an unknown element added to a collection without value turns a rejection into an acceptance, and added to a submodel without elements turns an exception into a report (C72_refuted). C72_partial: an insertion into a submodel or collection that has elements, at any position and depth, leaves the outcome unchanged."
  },
  {
   "property": "C73",
   "status": "partial",
   "theorems": [
    "C73_refuted",
    "C73_exact",
    "C73_partial"
   ],
   "note": "REFUTED: accepted environments with an xs:date with time zone, an entity or property in place of a collection, or a templated submodel without elements make the check raise (C73_refuted). C73_exact characterises all environments for which it raises."
  },
  {
   "property": "C74",
   "status": "partial",
   "theorems": [
    "C74_refuted",
    "C74_partial",
    "C74_entries",
    "C74_silent"
   ],
   "note": "REFUTED: the WARNING for an unknown semantic id is created but never appended to the report (C74_refuted). C74_partial, C74_entries: the report has exactly one entry per submodel with a template, in order, naming the submodel and the template."
  },
  {
   "property": "C75",
   "status": "proved",
   "theorems": [
    "C75_dry_run"
   ],
   "note": "No request for any client, suite, version, filter and server; for known suites the dry run returns and lists the selected operations."
  },
  {
   "property": "C76",
   "status": "proved",
   "theorems": [
    "C76_filter",
    "C76_reported"
   ],
   "note": "A run with a filter equals, for every server, the run of the suites from which the operations that are not selected have been removed; the operations reported are exactly those of the suite that the filter selects. The meaning of filters is C11-C13."
  },
  {
   "property": "C77",
   "status": "partial",
   "theorems": [
    "C77_refuted",
    "C77_call",
    "C77_server_errors_partial"
   ],
   "note": "REFUTED as stated: answers to GetThumbnail, GetFileByPath, GetSubmodel-ValueOnly, GetSubmodelById-ValueOnly, GetSubmodelElementByPath-Metadata and -ValueOnly and to the first request are not checked, so a status 500 gives INFO. True for every call through invoke_and_decode (500 and above: CRITICAL, unexpected status: ERROR, ok only with expected status and conforming body), and for all other operations with the verdict of the whole run."
  },
  {
   "property": "C78",
   "status": "proved",
   "theorems": [
    "C78_negative_tests"
   ],
   "note": "Every reported negative test belongs to one exchange and is ok exactly if the server rejected it (status 400-499 and conforming error body); the counters count these tests."
  },
  {
   "property": "C79",
   "status": "proved",
   "theorems": [
    "C79_statistics"
   ],
   "note": ""
  },
  {
   "property": "C80",
   "status": "proved",
   "theorems": [
    "C80_unreachable"
   ],
   "note": ""
  },
  {
   "property": "C81",
   "status": "proved",
   "theorems": [
    "C81_isolated"
   ],
   "note": "Every report that is returned contains all selected operations of the suite, each with its setup and, if that passes, all negative and positive tests in their order."
  },
  {
   "property": "C82",
   "status": "partial",
   "theorems": [
    "C82_refuted",
    "C82_causes",
    "C82_outage",
    "C82_setup",
    "C82_returned",
    "C82_refusing_partial",
    "C75_dry_run",
    "C80_unreachable"
   ],
   "note": "REFUTED as stated: a request that fails after the first one ends the run with RequestException, and a server without shells with IndexError. Proved for all servers, clients and configurations: nothing is sent after a request without an answer, and unless it is the first one the run ends with its exception and text, a TypeError in the negative tests becoming NotImplementedError (C82_outage). Proved for all servers and configurations: every exception has one of six listed causes in the last exchange of an operation (the request has no answer; the check of a value of the right type raises an exception, see C57; the answer of a setup lacks a value that is needed; it has a collection or list without value; it has no element; the first result of the test for a short identifier has none), all requests before are those of C94, and all operations before are conducted as in C95 (C82_causes, C82_setup). Hence a report is returned by every server that gives no such cause (C82_returned), in particular if it never answers with status 200 (C82_refusing_partial), by dry runs and for unreachable servers."
  },
  {
   "property": "C83",
   "status": "partial",
   "theorems": [
    "C83_refuted",
    "C83_cursor_ignored"
   ],
   "note": "REFUTED: the pagination test requires that a cursor was received but repeats the request without it. The test does the same for all cursors."
  },
  {
   "property": "C84",
   "status": "proved",
   "theorems": [
    "C84_invalid_values",
    "C84_generated"
   ],
   "note": ""
  },
  {
   "property": "C85",
   "status": "proved",
   "theorems": [
    "C85_exit",
    "C85_zero",
    "C85_statuses",
    "C85_json_prints",
    "C85_json"
   ],
   "note": "For every command line that reaches a verdict (Reaches: settings read, file or server checked) the program prints the report and ends with status 0 if it is ok and 1 otherwise, provided the terminal can print the report; if not, it ends with UnicodeEncodeError. Conversely status 0 means an ok verdict or a request for help. Other statuses are 1 and 2. JSON output is always printable ASCII."
  },
  {
   "property": "C86",
   "status": "proved",
   "theorems": [
    "C86_selection",
    "C86_requests",
    "C86_names"
   ],
   "note": "For every text as suite argument: a substring of exactly one of the suite names runs exactly the check of that suite, any other text ends with status 1 without output and requests. Requests are only sent after a selection. Every full name selects itself."
  },
  {
   "property": "C87",
   "status": "proved",
   "theorems": [
    "C87_header",
    "C87_stripped",
    "C87_option",
    "C87_dict"
   ],
   "note": "For all strings; the last value for the same header name wins, and one bad header refuses the command line (status 2, see C91_rejected)."
  },
  {
   "property": "C88",
   "status": "partial",
   "theorems": [
    "C88_refuted",
    "C88_causes"
   ],
   "note": "REFUTED: in every world generate_files raises AttributeError after making the directory (file.generate does not exist); check_file of an AASX file with --model_type Submodel as in the README raises GenericException, of a JSON submodel AttributeError; check_server with a version other than 3.0 raises UnboundLocalError, with a filter that has two tildes InvalidFilterException. C88_causes proves the complete list of causes of unhandled exceptions."
  },
  {
   "property": "C89",
   "status": "partial",
   "theorems": [
    "C89_refuted",
    "C89_accepts",
    "C89_complete",
    "C89_positions",
    "C89_sound_partial",
    "C89_content_partial"
   ],
   "note": "REFUTED for soundness: surplus children of text elements, duplicates, odd booleans, text in lists are accepted. Proved: all documents of the schema are accepted (C89_complete); exact description of what is accepted and returned in terms of the lenient reading xml_seen, for all trees (C89_accepts); findings point to non-conforming positions; sound for trees without the four deviations."
  },
  {
   "property": "C90",
   "status": "partial",
   "theorems": [
    "C90_requests",
    "C90_repository",
    "C90_tool",
    "C90_refuted"
   ],
   "note": "REFUTED as stated: the suites for a shell, a submodel and for the repository of submodels also request paths that are no endpoints of their service specification (C90_refuted). C90_requests gives the complete list of places, C90_repository shows the full statement for the repository of shells."
  },
  {
   "property": "C91",
   "status": "proved",
   "theorems": [
    "C91_settings",
    "C91_rejected",
    "C91_ends"
   ],
   "note": "argparse is modelled for parsers of the shape of the three commands. Command is the documented form of command lines; the parser's treatment of other command lines (abbreviations, '--', negative numbers) is modelled as well, but not specified independently."
  },
  {
   "property": "C92",
   "status": "proved",
   "theorems": [
    "C92_decode",
    "C92_report",
    "C92_exact",
    "C92_distinct",
    "C92_refuted",
    "C92_main"
   ],
   "note": "RFC 8259 decoder written independently of the printer; C92_exact shows that the restriction on surrogate pairs is necessary and sufficient (C92_refuted: two reports with the same text)"
  },
  {
   "property": "C93",
   "status": "proved",
   "theorems": [
    "C93_file",
    "C93_server",
    "C93_exit",
    "C93_levels",
    "C93_read_back"
   ],
   "note": "Reading back needs messages of code points without a high surrogate followed by a low one (see C92)."
  },
  {
   "property": "C94",
   "status": "partial",
   "theorems": [
    "C94_tests",
    "C94_tool",
    "C94_refuted"
   ],
   "note": "REFUTED: two positive tests of GetAllSubmodelElements send other values than their titles promise, so that no request asks for level=core with extent=withBlobValue (C94_refuted). C94_tests gives for each operation of each suite the exact requests of the setup, of each negative and of each positive test (path, query parameters and their values, number and order), for all runs that end with a report; C94_tool the same for the command line."
  },
  {
   "property": "C95",
   "status": "proved",
   "theorems": [
    "C95_verdicts",
    "C95_tool",
    "C95_accepted",
    "C95_spotless"
   ],
   "note": "For all runs that end with a report (see C82 for the others). Operations whose answers are not looked at (C77) pass with all answers, or all JSON objects and arrays, as listed in the specification of the answers. C95_accepted and C95_spotless give exactly the values that the check accepts or does not remark on: those of the published type of the answer whose objects of the meta model would be accepted (not remarked on) as files, see C34, C35 and C47."
  },
  {
   "property": "C96",
   "status": "proved",
   "theorems": [
    "C96_verdict",
    "C96_tool",
    "C96_expected",
    "C96_covered"
   ],
   "note": "No errors in the report (exit status 0) exactly if the exchanges are those with a compliant server; what each request of a setup expects is determined and given for all requests."
  },
  {
   "property": "C97",
   "status": "proved",
   "theorems": [
    "C97_exact",
    "C97_complaints",
    "C97_current"
   ],
   "note": "Exactly what passes, and which complaint comes otherwise. Digits may be of any script and the line of pyproject.toml may be in any table (Example C97_lax). C97_current: the files as they are pass with exactly the tag v1.0.2."
  },
  {
   "property": "C98",
   "status": "partial",
   "theorems": [
    "C98_refuted",
    "C98_language_refuted",
    "C98_blocks",
    "C98_executed",
    "C98_refused",
    "C98_current"
   ],
   "note": "REFUTED: a block without an end is silently dropped, and blocks of other languages are executed as python. True and exact: the blocks (C98_blocks), what is executed and when the script passes (C98_executed), when it complains (C98_refused); the README as it is has neither problem (C98_current)."
  }
 ]
}