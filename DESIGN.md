# Formal model of boynton/sadl in Rocq (Coq 8.16.1)

The model lives in `rocq/theories`. It is written by reading `/repo` as text; the Go code is never
built or run here. Every definition cites the file and lines it models and says where it simplifies.

## Conventions

* A Go `string` is a byte string: Coq `string` (list of 8-bit `ascii`).
* `nil` is an explicit `None`/constructor. A Go `error` is a value (`Err e`); a nil dereference or
  `panic` is the explicit outcome `Panic`; non-termination is reached only through an explicit fuel
  parameter whose exhaustion is the separate outcome `OutOfFuel` (never a normal-looking value).
* Go `map` with random iteration order: association list; claims about verdicts are proved for
  every permutation of the list, claims about printed text only where the code has no map iteration.
* The parser is a free monad over `Get`/`Unget` token operations; its loops carry fuel (`Spin` when it
  runs out, shown unreachable) and includes carry a nesting bound (`OutOfFuel` when it runs out).
* Loops are structural recursion, folds, or fuel; every fuelled function has a theorem that says
  how much fuel is enough, or a refutation with a witness when no fuel is enough.
* Error *messages* are abstracted to an error class (the text is not modelled) unless a property is
  about them.
* External code is a `Section` variable, hence a universally quantified argument of every theorem
  that uses it: the regexp engine (`compile`/`match`), the decimal text reader (`big.ParseFloat`),
  `strconv.Unquote`, the included-file reader. The tokenizer (github.com/boynton/scanner) is not in
  the sandbox: the parser is modelled over token lists.

## Files

| file | contents |
|------|----------|
| `GoStr.v` | byte-string helpers: Go `strings.Index`, `Split`, `Join`, `HasPrefix`, `HasSuffix`, `TrimSpace`, case mapping |
| `Schema.v`, `Value.v` | records of schema.go; dynamic values (`interface{}`) |
| `Misc.v`, `Data.v`, `Scalars.v`, `Time.v` | misc.go, data.go + struct_helpers.go, uuid.go/unitvalue.go/decimal.go, timestamp.go + `time.Parse` for the one layout used |
| `Model.v` | model.go: NewModel, FindType, FindHttp, Validate* |
| `Equiv.v`, `InlineEnums.v` | model.go: EquivalentTypes, ConvertInlineEnums |
| `Scan.v`, `Parser.v` | parser.go over tokens: push-back, every directive, includes |
| `ScanFacts`, `ParserMono`, `ParserTerm`, `ReadFacts`, `FileFacts` | totality, fuel and nesting independence, block comments |
| `Gives`, `InvFacts`, `InvNames`, `CheckFacts`, `ParsedFacts` | invariants of what reading can return, and of the checks after it |
| `Acts`, `LiteralFacts`, `OptionFacts`, `PositionFacts`, `IncludeFacts` | parsers as functions on token lists; exact languages of literals and option lists; option positions; includes |
| `Lex.v` | a small scanner: writes example texts, and states what is assumed of the scanner package in theorems about text |
| `ParserValidate.v` | parser.go: Validate and its helpers |
| `Unparser.v` | unparser.go as a producer of text pieces; `text` is the string, `tokens` what it scans to |
| `Yields`, `UnparseFacts`, `UnparseBlocks`, `UnparseValues`, `UnparseOps`, `UnparseComments`, `UnparseHttp`, `UnparseDoc`, `UnparseLex` | what reading gives for written types, values, operations, comments, actions, documents; the text scans to its pieces |
| `GenFacts`, `GoFacts`, `SmithyFacts`, `GraphqlFacts` | facts about the generators |
| `OpenApiFacts`, `OpenApiTotal` | references, operations, struct shape; when the OpenAPI export succeeds, struct round trip |
| `OpenApiImport.v`, `ImportFacts`, `ImportRound`, `ImportRead`, `ImportData`, `ImportMeans`, `ImportFits` | import_openapi.go; map order, actions out and back, which documents can be read, data out and back, what a document means, its data |
| `OasExamples.v`, `OasExamplesFacts`, `OasExamplesProofs`, `SprintFacts` | export_openapi.go 246-370: examples in an OpenAPI document; where they stand, crashes; numbers in decimal |
| `Swagger.v`, `SwaggerFacts`, `SwaggerData` | import_swagger.go: a Swagger 2 document read as OpenAPI 3; crashes, meaning, data |
| `Trace.v`, `TraceFacts`, `TraceText`, `TraceFill` | export_http_examples.go: the text of a trace; examples behind it, crashes, request lines, messages read back |
| `GoModel.v`, `GoModelFacts`, `GoText`, `GoNames` | golang_model.go: the text of the Go file of types; declarations behind it, crashes, imports, names |
| `GoData.v` | no model: JSON through the declarations of that file, as `SpecGoData.v` describes encoding/json |
| `SmithyAst.v`, `SmithyWrite`, `SmithyShapes`, `SmithyFinal`, `SmithyTypes`, `SmithyRead`, `SmithyHttp`, `SmithyRound`, `SmithyKept`, `SmithyData`, `SmithyDocs` | FromSADL and ToSadl; which models can be written, the shapes of the document, which documents can be read, types, actions and data out and back |
| `GraphqlImport.v`, `GraphqlRead`, `GraphqlRound`, `GraphqlData` | import_graphql.go; which documents can be read and what they mean, types and data out and back |
| `JsonAst.v`, `JsonFacts`, `JsonData`, `JsonCrash` | the JSON form of a model (json tags, Pretty, LoadModel); what is loaded from a written text, data, crashes |
| `Command.v`, `CommandFacts`, `CommandOpts` | cmd/sadl; which files are read, what options reach importers and generators |
| `Generator.v`, `Java.v`, `Golang.v`, `HttpTrace.v`, `OpenApi.v`, `Smithy.v`, `Graphql.v` | exporters / importers (the parts named by a property) |
| `Spec*.v` | specifications, written without the model's functions |
| `Props*.v` | property theorems only (`exact lemma`, `Print Assumptions`) |

## Plan per property

* **C01, C02** `NewModel` as a fold over an association-list index. Spec: `NoDup` of names, disjoint
  from base names; lookup = the unique member. Proof by induction on the definition list.
* **C03** `validate` with fuel over `value`; spec `conforms` is an inductive relation over model,
  type spec and value. Prove `validate = ok <-> conforms` for every fuel that does not run out.
* **C04** expected false (the natural ranges are passed as Go `int`, a type `DecimalValue` does not
  know): refutation with a witness, plus the declared min/max part.
* **C05** permutation relation on nested values; verdict (accept / not accept) invariant.
* **C06** expected false for Union (and alias cycles): refutation for every fuel; plus termination
  for every model without alias cycles reachable from the type.
* **C07** chain of names of any length by induction.
* **C08, C09, C10** consequences stated positionally over paths / per kind; key types (C09) and
  values+pattern (C10) expected false: refutations plus the true parts.
* **C11** exact language of `ParseUUID`; hex part expected false.
* **C12** split law, print/parse round trip; validator agreement expected false (`"5 kg"`).
* **C13, C14** own model of `time.Parse` for layout `2006-01-02T15:04:05.999Z`; round trip; calendar spec.
* **C15, C16, C17** `EquivalentTypes` with explicit pointer identities; symmetric / same-values /
  termination expected false: witnesses; true fragments proved.
* **C18, C19** `ConvertInlineEnums` as a state transformer with partial effects on error.
* **C20** map laws for one key; the multi-key path law is expected false; histories of Puts by induction.
* **C21, C22, C46** string lemmas.
* **C23, C24** parser over tokens with fuel = measure of the remaining input; no `OutOfFuel`; crash
  freedom expected false for `operation`; proved for streams without operation directives.
* **C25** `ParseOptions` against an inductive grammar (`SpecOptions.v`), both directions; then each position.
* **C55** literals against an inductive grammar, both directions; expected false for objects (witness).
* **C26, C27, C28, C29, C30, C31** parser validation against independent predicates; C29 expected
  false in full (union variants, nested structs, operations): refutations + the resolved part.
* **C32, C33, C34, C56, C57, C58** text printers and the parser: round trip by induction over values / definitions, first on
  tokens, then on text with the scanner of `Lex.v`; expected false outside the expressible subset (witnesses).
* **C35** include as a function of the included schema.
* **C36, C50, C51** file system as a map, histories of generator calls, the operating system's answers as arguments of each write; exact effect of each call.
* **C37 - C44, C47, C48, C52 - C54** exporter functions as total functions with explicit panics.
* **C59 - C63** the importer as a function of a document whose maps are lists; a relation `doc_alike` for the same document
  in another order; round trips expected false in full (witnesses), proved on the part that survives.
* **C64 - C73** Smithy documents as ordered maps of shapes; writing and reading as functions on them; the behaviour of
  the decoder of numbers is an argument (`slib`). Which models can be written and which documents read: equivalences.
  Round trips expected false in full (witnesses), the part that survives stated as relations in `SpecSmithy.v`.
* **C74 - C77** the GraphQL document as given by the parser package, which is an argument; equivalences for success and
  crash, the meaning of a document as a relation, round trips as for OpenAPI and Smithy.
* **C78 - C81** JSON texts as trees, encoding/json as far as the types of schema.go use it; the reader of numbers is an
  argument. What is loaded from a written text as a relation (`SpecJson.v`), an equivalence; identity and conformance
  of examples expected false (witnesses).
* **C82 - C87** the command line tool as functions of the arguments; file system and format readers are arguments.
  Which files are read: an equivalence; options: an equivalence, witnesses for what is lost.
* **C88, C89** a relation between schemas and types (`means`, `type_of`) and between operations and actions (`action_of`),
  both directions; `fits` says which data a schema describes: an equivalence with validation on `plain` schemas, witnesses outside.
* **C90 - C93** Swagger documents as decoded JSON; the translation to OpenAPI 3 as a relation on JSON (`doc_of`), composed
  with C61, C88, C89; the data of definitions stated on JSON directly (`sw_fits`); crashes: an equivalence and witnesses.
* **C94 - C97** the text of a trace as a function of the model, the texts of numbers, JSON, status codes and dates and the
  order of names left open; exchanges as a relation on examples (`SpecTrace.v`); crashes: an equivalence; filling in and
  reading back under conditions on values, witnesses outside.
* **C98 - C101** the text of the Go file of types; `SpecGo.v` has Go declarations as data with their text, related to the
  model without the generator; crashes: an equivalence; imports and names under conditions, witnesses outside.
* **C102** JSON through the generated Go types: `SpecGoData.v` describes encoding/json by two relations, reading a JSON value
  into a Go value of a type and writing it, given the declarations; C98 ties the declarations to the file. Round trip for the
  data that is `kept` by induction on `member`; witnesses for what is not kept.
* **C103 - C105** the text of the Go server; `SpecGoServer.v` has handlers as data with their text and relates them to actions;
  failure: an equivalence; Go's scoping rules as a predicate on the steps of a handler: an equivalence with a condition on actions.
* **C106, C107** the same for the Go client (`SpecGoClient.v`).
* **C108 - C111** the generated server and client when they run: `SpecGoCall.v` states what the generated code, read as data by
  C103 and C106, does with a request, and the parts of net/http, net/url, strconv and gorilla/mux it relies on (trusted:
  header names as they are declared, clean paths without the base path, routes without patterns of their own, route texts
  without characters that a Go literal escapes). Values, calls, routes and answers under conditions, witnesses outside;
  routes and switch cases as equivalences. The Go functions they call are fixed texts (`SpecGoLibrary.v`) that the
  generated files contain (C98_functions, C103_functions).
* **C112, C113** the examples of a model in its OpenAPI document: the export as a list of assignments to places; the order in
  which Go visits the paths is an arbitrary permutation for each example. `SpecOasExamples.v` says where an example lands
  from the model alone; what stands, and when the export crashes, as equivalences.
* **C114, C115** the generated Java classes: `JavaModel.v` follows the generator with its state (imports, flags, error, files);
  `SpecJava.v` has Java classes as data with their text, related to the model without the generator. The text of every file,
  and when generating succeeds, as an equivalence (fuel stands for the recursion of TypeName, which need not end). What a
  class asks for (imports, helper files) is related to the model too: a file imports exactly what the classes so far ask for.
* **C116** the names in those classes: `SpecJavaNames.v` lists the names a class mentions and where Java finds them; from the
  text theorem, by showing that every mentioned name is asked for. Under conditions on the types, with a witness outside each.
* **C117 - C119** the generated Java server and client: `JavaService.v` follows both generators, `SpecJavaService.v` has their
  methods as data with their text, related to the model without the generators. Text and success as equivalences; from them
  the exact conditions under which the client and the server of one action agree on inputs, outputs and errors.
* **C120 - C122** the whole Java export: `JavaExport.v` follows the configuration, the three parts, pom.xml and the writing of the
  files; `SpecJavaExport.v` has the value of every setting and the names of the files. The parts are put together from C114 and
  C117; the order in which they are stored is an induction on the list of files.
* **C123** the checks of a document on reading (`OasValidate.v`), characterised exactly; with the paths of C38 the condition on the
  model follows as an equivalence.
* **C124, C125** the whole Go export: `GoExport.v` follows the configuration and the three parts with the writing of the files;
  `SpecGoExport.v` has the value of every setting and the three files. The parts are put together from C98, C103 and C106 with
  their exact failures; that the three places differ follows from the last component of a cleaned path.
* **C126** the examples in the schemas of an OpenAPI document: `OasTake.v` has schemas with examples and follows what the import
  collects; by induction on the schema, the examples are those reached by labels; names without dots make the targets readable.
* **C127** the text of the GraphQL export: `SpecGraphqlText.v` has the tokens and the definitions of the GraphQL language as relations;
  the text of each definition is followed by any text with known tokens, so that the document is an induction; both relations are
  shown to be functions. Numbers, strings, directives and arguments of GraphQL are left out, as none is written.
* **C45** GetToken/UngetToken laws; block comments erased.

No property is given up as inexpressible at this point. What a model cannot exhibit: the scanner's
own behaviour, the regexp engine, JSON/YAML decoding, memory and stack limits, real file systems.

## Trusted base

The Coq kernel; no axioms: `Print Assumptions` under every property theorem prints "Closed under the
global context". Then the reading of `/repo` recorded in the comments, and the section variables
listed under Conventions. Theorems about written text (C33, C34, C56 - C58) assume of the scanner
package what `Lex.v` says.

### Modelled

| source | modelled | not modelled |
|--------|----------|--------------|
| schema.go, version.go | records, JSON form (json tags) | - |
| model.go | all | error texts |
| parser.go | all directives, options, literals, includes, Validate | error texts and positions, `parseBytesOptions` (dead code), extension hooks |
| unparser.go | all | the dead branch 210-219; annotations are written in list order, Go uses map order |
| misc.go, data.go, struct_helpers.go | string helpers, FormatComment, Data get/put, JSON writing of parsed values | file helpers, YAML |
| uuid.go, unitvalue.go, decimal.go, timestamp.go | parsing, printing of UUID/UnitValue/Timestamp | Decimal arithmetic on `big.Float` (numbers are exact dyadics; their text is an argument) |
| generator.go | file writing, naming, path joining | templates (`text/template`) |
| golang/* | package/file naming, import computation, field and type names, the files of types, server and client, the configuration and the writing of the files | `fmt.Sprint` of defaults and `ParseTimestamp` are arguments of the server; `%q` of bytes from 128 on; that text/template recovers panics of functions is assumed |
| java/* | package/file naming, capitalisation, type names, pom coordinates, the classes of types, requests and responses, the interface and the helper files, the server and the client, the configuration, pom.xml, the order of writing | extra resources of the server (a field only Go programs can set); the text of a Decimal is an argument |
| smithy/* | FromSADL, ToSadl, their helpers | the IDL/AST readers and writers, AssembleModel, the packages boynton/smithy and boynton/data (assumptions at the top of `SmithyAst.v`) |
| openapi/* | export of types, actions, examples and head; import of types, actions, head and examples; the checks on reading; Swagger 2 | decoding of JSON and YAML |
| graphql/* | export, import | the GraphQL parser (assumed: it reads written text back as the definitions written, comments dropped) |
| httptrace/* | all | the texts of `Decimal.String`, `Pretty`, `http.StatusText` and the date (arguments) |
| cmd/sadl/* | choice of files and importer, options, choice of generator | flag parsing, reading the configuration file, Swagger UI server, exit codes |
