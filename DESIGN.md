# Formal model of aas-test-engines in Rocq/Coq

Target: the python package in `/repo/aas_test_engines` (read as text, never executed).
Everything is in `rocq/theories`, one logical library `Verif`, built by
`coq_makefile -f _CoqProject -o Makefile && make -j4` in `rocq` (about 12 minutes on four cores).

## 1. Conventions of the model

* The model is *shallow and executable*: every python function is a total Gallina
  function that follows the python text branch by branch.  Each definition carries a
  comment with file and lines.  Examples next to the theorems run the model with
  `vm_compute`.
* Python exceptions are values.  A function that may raise returns an outcome
  (`Val x | Raise e`); `ResultException` (`Abort`), `AdapterException` and
  `CheckConstraintException`, which the code itself catches, have their own constructors.
  Nothing is totalised by a default value: reading a missing attribute is `AttributeError`,
  iterating over `None` is `TypeError`, and so on.
* Strings are lists of unicode code points (`str := list N`).
* Mutation is modelled by state passing.  Where aliasing of mutable objects is the
  point (C04) there is an explicit heap.
* Recursions which are not structural (relationship scan, generic parser, reflection, reading of
  command lines) take fuel; exhausted fuel is a separate error value and a theorem
  shows that it is never returned when the stated amount of fuel is supplied
  (C23, C36, C41, C91).
* Code that talks to a server is a *program* (`prog`): a tree of report entries, blocks, aborts,
  exceptions and requests.  `exec` runs it with the stack of open reports of result.py against any
  `server` (a function from the history of exchanges and a request to a reply or a failure);
  `meaning` is the stack-free semantics used in proofs, shown to agree with `exec`.
* External code (json, ElementTree, zipfile, requests) is represented by
  data: parsed JSON values, element trees, a finite map of archive members with the
  outcome of parsing them, a server.  Python's `re`, `int`, `float`, `Decimal`, `bytes.fromhex`,
  `base64`, `fnmatch`, `urllib.parse.quote`, `json.dumps`, C3 linearisation, `dataclasses` and the
  part of `argparse` that is used are modelled as functions.

File kinds: `*Model` (definitions only), `*Spec` (independent specifications),
`*Facts` (lemmas), `P_*` (property theorems, each with `Print Assumptions`, and examples).

| files | content | code |
|---|---|---|
| `PyStr`, `PyStrFacts`, `PyBase`, `PyXml`, `PyVal` | python strings, exceptions, JSON values, element trees, objects | stdlib |
| `Regex` | regular expressions, language, derivative matcher proved correct, `re.match` with `$` | `re` |
| `ResultModel`, `HeapModel`, `ContextModel`, `ResultSpec`, `ContextSpec`, `ResultFacts`, `ContextFacts`, `P_Result` | reports, shared reports, `with start(...)`; C01-C10 | result.py |
| `ConfigModel`, `ConfigSpec`, `ConfigFacts`, `P_Config` | fnmatch, filter; C11-C13 | config.py |
| `Codec`, `CodecSpec`, `CodecFacts`, `HttpModel`, `P_Http` | utf-8, base64, url encoding, client; C14-C19 | http.py |
| `OpcModel`, `FileModel`, `OpcSpec`, `FileSpec`, `OpcFacts`-`OpcFacts3`, `P_Opc` | packages, entry points; C20-C32 | opc.py, file.py |
| `DataTypesModel`, `DataTypesSpec`, `DataTypesFacts`-`DataTypesFacts5`, `P_DataTypes`, `BinarySpec`, `P_Binary` | lexical checks against XSD, RFC 5646, RFC 3987; C59-C70 | data_types.py |
| `ReflectModel`, `ReflectSpec`, `ReflectFacts` | reflection over class statements | reflect.py |
| `MetaModel`, `MetaSpec`, `MetaFacts`, `P_Reflect` | class statements of the meta model; the published meta model as a flat table; C40, C41 | model.py |
| `AdapterModel`, `ParseModel`, `CheckModel`, `ParseSpec`, `ParseFacts`-`ParseFacts4`, `ParseSim`, `ParseCrash`, `P_Parse` | meta model check of JSON documents; C34-C39 | adapter.py, parse.py |
| `XmlSpec`, `XmlFacts`-`XmlFacts3`, `P_Xml` | meta model check of XML documents; C42-C46, C89 | adapter.py, parse.py |
| `TypeSpec`, `TypeFacts`, `TypeFacts2` | objects of accepted documents have the declared types | parse.py, model.py |
| `ConstraintModel`, `ConstraintSpec`, `ConstraintFacts`-`ConstraintFacts8`, `P_Constraint`-`P_Constraint3` | the `check_*` methods and the published constraints; C47-C57 | model.py, parse.py |
| `PathSpec`, `PathFacts`, `P_Path` | idShort paths; C58 | model.py |
| `TemplateModel`, `TemplateSpec`, `TemplateFacts`, `TemplateFacts2`, `P_Template` | submodel templates, complete check of a document; C33, C71-C74 | parse_submodel.py, submodel_templates.py, `__init__.py` |
| `ProgModel`, `ProgSpec`, `ProgFacts` | test programs | result.py, http.py |
| `ApiModel`, `ApiSuites`, `ApiSpec`, `ApiBody`, `ApiTables`, `ApiFacts`-`ApiFacts3`, `P_Api` | test suites for servers; C75-C84 | api.py, interfaces/*.py, generate.py |
| `ArgModel`, `CliModel`, `CliSpec`, `ArgFacts`, `CliFacts`, `P_Cli` | command line; C85-C88, C91 | `__main__.py` |
| `JsonSpec`, `JsonFacts`, `P_Json` | JSON texts (RFC 8259 decoder); C92 | `__main__.py`, `json.dumps` |
| `ActsFacts`, `RequestSpec`, `RequestFacts`-`RequestFacts3`, `P_Request` | endpoints of the service specifications; C90 | interfaces/*.py, shared.py, http.py |
| `TestSpec`, `ApiPart`, `ApiValue`, `TestFacts`-`TestFacts3`, `P_Tests` | table of all tests, their requests and claims; C94, C95 | interfaces/*.py, shared.py, api.py |
| `VerdictSpec`, `VerdictFacts`, `P_Verdict` | which servers pass; C96 | interfaces/*.py, shared.py, api.py |
| `ScriptsModel`, `ScriptsSpec`, `ScriptsTexts`, `P_Scripts` | scripts that guard a release; C97, C98 | bin/check_version_strings.py, bin/check_readme.py |
| `CrashSpec`, `CrashValue`, `CrashFacts`-`CrashFacts6`, `P_Crash`, `P_Outage` | causes of exceptions in the check of a server; C82 | interfaces/*.py, shared.py, api.py |
| `ReportFacts`, `P_Report` | all reports of the tool; C93 | file.py, opc.py, parse.py, api.py, `__main__.py` |

## 2. Properties, approach and findings

"refuted" means: the full statement is false of the code; `C.._refuted` proves this with a
witness, the other theorems state what is true, where possible exactly.  `MANIFEST.json` lists the
theorems of each property.

### Reports (C01 - C10)
Result trees by tree induction against an independent "occurs in" predicate; the round trip as an
equivalence; the text report against a pre-order listing; the HTML page against a recogniser of
balanced markup; blocks by induction over all programs with the semantics of `with`.
* C04 refuted: an entry that is appended first and extended later does not lift its parent
  (`AasTestResult.append` only looks at the level at that time).

### Filters, requests, encodings (C11 - C19)
Glob tokens with a declarative matching relation; decoders as specification of the encoders.
* C13: `[b-a!x]` deviates from the glob meaning in CPython's `fnmatch`.
* C16 refuted: `/shells?limit=1` with prefix `/shells` keeps the prefix.
* C17 refuted: a second `descend` forgets the first.
* C18 refuted: additional headers are stored, but never sent.

### Packages (C20 - C32)
Segments as specification of paths; the scan of relationships by induction on unvisited parts.
* C21 refuted by `./ a`.  C26 refuted: for a part at the top level `/_rels/x.rels` is looked up.
* C27 refuted: a relationship file that is not well-formed XML raises `ParseError`.
* C29 refuted: an origin that is first reached through another relationship is not checked.
* C32 refuted: `check_xml_file` drops the model type.

### Documents (C33 - C46, C89)
A generic parser over an adapter; conformance is an inductive relation over a *view* of a document and
a table of types, independent of the parser.  The class statements of model.py are
transcribed, reflection is modelled, and the resulting symbol table is compared with a table of
the published meta model.
* C33 refuted: the complete check raises `AttributeError` for every model type but Environment and
  AssetAdministrationShell, and for shells that refer to submodels.
* C34, C35, C40 refuted: EventElement is concrete, lastUpdate takes any xs:dateTime, Blob values are
  not base64, an empty Blob value is rejected, modelType is not checked for types without subtypes.
* C42 refuted: elements with short qualified names raise `IndexError`.
* C43 refuted: child elements of text elements are accepted, if the first has no children.
* C44 refuted: every text is a boolean; `1` is false.  C45 refuted: the last duplicate wins.

### Constraints and paths (C47 - C58)
Every constraint of part 1 and 3a that the code claims to check is stated about objects; each
`check_*` method is shown to decide it, or its exact deviation is proved.
* C48: list positions are read by `int()`.  C49: statements and annotations need not be unique.
* C50: lists of abstract element types.  C51: AASd-116 depends on the case of the name.
* C52: nested template qualifiers, AASd-021, AASd-077 are not checked.
* C54: categories PROPERTY and so on are always rejected; `En` is not English.
* C55: language strings may contain control characters.
* C57: three `AttributeError`s.  C58: elements below entities, operations and annotated
  relationships have no path.

### Lexical checks (C59 - C70)
Specifications by decomposition or ABNF; regular expressions by the verified matcher; floats by exact
rational rounding.
* C63, C70: more than 4300 digits.  C64: `1_0`, blanks, other digits.  C65: the largest double and float
  are rejected.  C66: blanks in hexBinary, any character in base64Binary, and anything behind its padding (`C66_base64_exact`).  C67: case of grandfathered tags.
  C68: abbreviated IPv6 addresses.  C69: `$` matches before a final line feed.

### Submodel templates (C71 - C74)
Cardinalities and types at every nesting level against a specification over objects.
* C72 refuted: an unknown element changes the verdict of an empty collection.
* C73 refuted: four kinds of environments make the check raise (exact list proved).
* C74 refuted: the warning for an unknown semantic id is never appended.

### Servers (C75 - C84, C90, C94 - C96)
All suites, operations and test methods are transcribed as programs; theorems quantify over all servers.
* C77 refuted: some answers are not looked at, a status 500 gives INFO.
* C82 refuted: a failing request after the first one, or a server without shells, ends the run with an
  exception.  `C82_outage`: a request without an answer is always the last one, and unless it is the first its exception ends the run
  (a TypeError in the negative tests as NotImplementedError).  `C82_causes` gives all causes of exceptions; each is in the last exchange of an operation.  The others are: values of the
  right type on which the check itself fails (C57), shells without a short identifier or a global asset identifier,
  collections without a value, submodels without elements.  A report is returned if a server gives no cause.
  C83 refuted: the pagination test does not send the cursor.
* C90 refuted: all requests go to a table of published endpoints or to listed paths that are none
  (`/aas/`, `/submodel/`, `/aas/shells`, ...); only the repository of shells requests no such path.
* C94: a table gives for each operation the requests of its setup and of every single test; a run sends exactly
  these, in this order.  Refuted as stated: two titles of `GetAllSubmodelElements` promise other parameters than
  those sent, so that `level=core` with `extent=withBlobValue` is never requested.
* C95: the table also gives the claim of each test; the entry of a test fails exactly if the answer to its request
  is not accepted or violates the claim.  A value is accepted exactly if it has the published type and all objects of the
  meta model in it would be accepted as files (C47).
* C96: a run has no errors exactly if its exchanges are those with a compliant server (`Compliant`, which does not
  mention reports): all setups are supplied, all wrong values rejected, all claims fulfilled, nothing else is sent.

### Command line (C85 - C88, C91 - C93)
`main` from `sys.argv` to output, requests, created directories and exit status, in any world of
files and servers; `argparse` is modelled and its result compared with documented command lines.
* C88 refuted: `generate_files` never works, `--model_type Submodel` (README), `--version 3.1`,
  `--filter a~b~c` raise unhandled exceptions.
* C92: the printed JSON text is decoded to the report again, exactly if no message has a high surrogate before a low
  one (`C92_refuted`: otherwise two reports can have the same text).
* C93: every report is made by creating and appending entries, for files and servers; hence the exit status is
  0 exactly if no entry anywhere in the report is an error, and the printed JSON text gives the report again.
* A repeated `--header` replaces the headers given before.

### Release scripts (C97, C98)
`bin/check_version_strings.py` and `bin/check_readme.py`, from the texts they read (after decoding) to their end.
* C97: exactly the commits pass whose one tag is the version in both files; the files as they are need `v1.0.2`.
* C98 refuted: a block of the README without an end is dropped, and the language of a block is ignored.

## 3. Trusted base

* The Coq kernel (8.16.1) including `vm_compute`; coqchk re-checks without it.
* Axioms: none are added, and no theorem depends on any: `Print Assumptions` below each
  property theorem says "Closed under the global context".  (coqchk lists `Coq.ssr.ssrunder.Under_rel.*`
  of the standard library, which is loaded with the `ssreflect` rewriting tactics and not used.)
* That the model is a faithful reading of the code.  Re-reading, examples and mutations (section 4) support
  this; the code was not run.

Modelled as *inputs*, so that theorems hold for all of their values:
* decoded JSON documents, element trees, zip members and their failures; element tails are not part of trees
  (the code does not read them);
* the server: any function from the exchanges so far and the request to a reply or exception;
* the file system, the encoding of the standard output (`w_prints`), the HTML template;
* `show`, `repr`: texts of values inside messages (only occur in messages).

Not modelled:
* python's recursion limit, memory, time-outs, TLS, the standard error output;
* the texts of exceptions (but those of C97) and of argparse's messages;
* `bin/check_sdks.py` and `bin/check_servers.py`, which drive docker; `bin/run_tests.sh`; the tests;
* of `date.fromisoformat` only the form YYYY-MM-DD, which is all that reaches it after the pattern check;
* the contents of the language string dictionaries built by the template check;
* argparse beyond parsers of the shape used here (positional arguments of one string, options of no, one or
  several strings, `-h`); subparsers, `nargs='?'` and prefix characters other than `-` do not occur.

Assumed about CPython 3.11: the limit of 4300 digits for `int(str)`; `float` and `Decimal` read and round as IEEE 754
and the decimal specification say; `ConfusionMatrix.__add__`-like updates are componentwise.

## 4. Testing the theorems

`seeded/LOG.jsonl` records, for changes of single definitions of the model, which theorems stopped being
provable; theorems were tightened where a change that breaks a property was not noticed.
