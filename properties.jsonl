{"id": "C01", "title": "Model construction accepts exactly the collision-free schemas", "statement": "NewModel(schema) returns a model (and no error) if and only if no two type definitions share a name, no type definition uses the name of one of the 19 base types, and no two http actions share a name. In every other case it returns an error and no model.", "quantifier": "every schema: any number of types and http actions, any names, any order", "why_tests_cant": "A unit test shows particular duplicate pairs being rejected; that no duplicate at any distance is missed and that nothing else is rejected ranges over all finite schemas.", "anchors": ["model.go:NewModel", "schema.go:BaseTypes"]}
{"id": "C02", "title": "Type and action lookup is exact", "statement": "In a model returned by NewModel, FindType(n) returns the unique definition of the schema named n, or the built-in definition when n is a base type name, and nil for every other name; FindHttp(n) returns the unique http action named n and nil for every other name. A base type can never be shadowed.", "quantifier": "every schema accepted by NewModel and every name", "why_tests_cant": "Tests sample a few names; exactness (nothing lost, nothing invented, nothing shadowed) is a statement about all names and all schemas.", "anchors": ["model.go:NewModel", "model.go:FindType", "model.go:FindHttp"]}
{"id": "C03", "title": "Validation accepts exactly the conforming values", "statement": "Model.Validate(ctx, T, v) returns nil exactly when v is a member of the value set that the definition of T denotes (declared constraints of every base kind, recursively through struct fields, array items, map items, unit-value parts and named types), and an error otherwise.", "quantifier": "every model, every type name, every nested value and every error context", "why_tests_cant": "The value set is defined by recursion over arbitrarily deep values and mutually recursive types; tests cover finitely many shapes.", "anchors": ["model.go:Validate", "model.go:ValidateAgainstTypeSpec", "model.go:ValidateStruct", "model.go:ValidateArray", "model.go:ValidateMap", "model.go:ValidateString", "model.go:ValidateNumber", "model.go:ValidateEnum"]}
{"id": "C04", "title": "A value accepted for a sized integer type fits that type", "statement": "If Validate accepts a number for a type derived from Int8, Int16, Int32 or Int64, then the number is a whole number inside the range of that type and inside any declared min/max.", "quantifier": "every numeric type definition and every number", "why_tests_cant": "The claim bounds an infinite set of numbers; a test picks a few of them.", "anchors": ["model.go:ValidateNumber", "decimal.go:DecimalValue"]}
{"id": "C05", "title": "Validation verdicts do not depend on map iteration order", "statement": "Whether Validate accepts a value is the same for every order in which the runtime enumerates the keys of the (nested) JSON objects inside the value.", "quantifier": "every model, type and value, and every permutation of the keys of every object in it", "why_tests_cant": "Go randomises map iteration per run: the claim is about all schedules of that nondeterminism, which a test can only sample.", "anchors": ["model.go:ValidateStruct", "model.go:ValidateMap"]}
{"id": "C06", "title": "Validation terminates on every model", "statement": "Validate returns (with or without error) for every type name of every model and every value.", "quantifier": "every model accepted by NewModel, every type name, every value", "why_tests_cant": "Termination over all type graphs is not observable by finitely many runs; a hang needs a particular type graph.", "anchors": ["model.go:Validate", "model.go:ValidateAgainstTypeSpec"]}
{"id": "C07", "title": "A named type used as a type is transparent", "statement": "Validating a value against a type spec that merely names another type gives the same verdict as validating against the named definition, through a chain of names of any length; an unknown name at the end of the chain is always rejected.", "quantifier": "every chain length, every model, every value", "why_tests_cant": "The chain has unbounded length.", "anchors": ["model.go:ValidateAgainstTypeSpec"]}
{"id": "C08", "title": "Struct validation is closed and complete at any depth", "statement": "If Validate accepts a value, then at every position inside it where a struct is required, the object has only declared fields, has every required field, and each present field conforms to its declared type.", "quantifier": "every accepted value and every path into it, of any length", "why_tests_cant": "Paths have unbounded length and the positions are determined by the type graph.", "anchors": ["model.go:ValidateStruct", "model.go:IsStructField"]}
{"id": "C09", "title": "Collections respect declared sizes, item types and key types", "statement": "If Validate accepts an array or a map for a definition with minsize/maxsize, items (and keys) types, the element count is within the bounds, every element conforms to the items type and every key conforms to the keys type.", "quantifier": "every definition, every collection size and content", "why_tests_cant": "Quantifies over collections of every size.", "anchors": ["model.go:ValidateArray", "model.go:ValidateMap"]}
{"id": "C10", "title": "String validation enforces all declared constraints together", "statement": "If Validate accepts a string for a String definition, then its length is within minsize/maxsize, it is one of the listed values when values are given, and it matches the pattern when a pattern is given.", "quantifier": "every String definition (any combination of constraints), every byte string, every pattern language", "why_tests_cant": "Interaction of four independent constraints over all strings.", "anchors": ["model.go:ValidateString"]}
{"id": "C11", "title": "UUID acceptance is the documented textual form", "statement": "ParseUUID accepts exactly the 36-character strings made of hexadecimal digits in groups 8-4-4-4-12 separated by '-', and Validate accepts a string for a UUID type exactly when ParseUUID does.", "quantifier": "every byte string", "why_tests_cant": "16^32 strings.", "anchors": ["uuid.go:ParseUUID", "model.go:ValidateUUID"]}
{"id": "C12", "title": "Unit values survive print and parse and are validated as they are parsed", "statement": "ParseUnitValue splits a string at its first space into a decimal and a non-empty unit and accepts exactly those strings; printing a unit value and parsing it gives back the same unit and value; Validate accepts for a UnitValue type exactly the strings ParseUnitValue accepts whose parts conform to the declared value and unit types.", "quantifier": "every string, every unit text, every decimal whose text form has no space", "why_tests_cant": "All strings and units.", "anchors": ["unitvalue.go:ParseUnitValue", "unitvalue.go:String", "model.go:ValidateUnitValue"]}
{"id": "C13", "title": "Timestamps survive print and parse", "statement": "For every UTC instant in years 1000-9999 other than the zero time, parsing the text form of the timestamp succeeds and yields the same instant truncated to milliseconds; printing that again gives the same text.", "quantifier": "every instant (year, month, day incl. leap days, hour, minute, second, nanosecond)", "why_tests_cant": "About 2.8*10^20 nanosecond instants.", "anchors": ["timestamp.go:String", "timestamp.go:ParseTimestamp"]}
{"id": "C14", "title": "Timestamp parsing accepts only real instants and normalises UTC spellings", "statement": "ParseTimestamp accepts a text only if it denotes an existing calendar date and time of day in UTC; the suffixes Z, +00:00, -00:00, +0000 and -0000 denote the same instant.", "quantifier": "every byte string", "why_tests_cant": "All strings; includes leap-year and month-length rules for all years.", "anchors": ["timestamp.go:ParseTimestamp"]}
{"id": "C15", "title": "Type equivalence is an equivalence relation", "statement": "EquivalentTypes is reflexive, symmetric and transitive on the type specs of a model.", "quantifier": "every model and every pair / triple of type specs", "why_tests_cant": "Universally quantified over triples of arbitrarily large definitions.", "anchors": ["model.go:EquivalentTypes", "model.go:EquivalentTypesByName"]}
{"id": "C16", "title": "Equivalent types accept the same values", "statement": "If EquivalentTypes(t1,t2) holds then Validate accepts a value against t1 if and only if it accepts it against t2.", "quantifier": "every model, pair of types and value", "why_tests_cant": "All pairs of types times all values.", "anchors": ["model.go:EquivalentTypes"]}
{"id": "C17", "title": "Type equivalence terminates without a crash", "statement": "EquivalentTypesByName returns a boolean for every pair of names defined in a model.", "quantifier": "every model and every pair of names", "why_tests_cant": "Needs a particular recursive type graph to fail.", "anchors": ["model.go:EquivalentTypes", "model.go:EquivalentTypesByName"]}
{"id": "C18", "title": "Hoisting inline enums preserves meaning", "statement": "When ConvertInlineEnums succeeds, no top-level struct field has an inline enum any more, every type that existed before still exists and accepts exactly the same values as before, and type names stay unique.", "quantifier": "every model on which it succeeds, every value", "why_tests_cant": "Whole-model transformation: needs all models and all values.", "anchors": ["model.go:ConvertInlineEnums"]}
{"id": "C19", "title": "Hoisting inline enums is idempotent, and atomic on error", "statement": "A second ConvertInlineEnums call after a successful one changes nothing; when the call fails the model is unchanged.", "quantifier": "every model", "why_tests_cant": "All models, including those failing late.", "anchors": ["model.go:ConvertInlineEnums"]}
{"id": "C20", "title": "Configuration data behaves like a map", "statement": "After Put(k,v) on configuration data holding an object or nothing, Get(k) is v and Get of every other key is unchanged; Get(k1,...,kn) is nil whenever some key on the path is absent, otherwise the value at the end of the path.", "quantifier": "every data value, every key path, every sequence of Puts", "why_tests_cant": "Unbounded sequences of writes and paths.", "anchors": ["data.go:Put", "data.go:Get", "data.go:get", "data.go:Has"]}
{"id": "C21", "title": "Comment formatting loses no word and respects its prefix and width", "statement": "FormatComment on a single-line comment emits lines that all start with indent and prefix; joining the emitted words gives back the words of the comment in order; no line with more than one word exceeds the column limit.", "quantifier": "every comment, indent, prefix and limit", "why_tests_cant": "All comments and all break positions.", "anchors": ["misc.go:FormatComment"]}
{"id": "C22", "title": "Capitalisation round-trips and identifiers are recognised exactly", "statement": "Capitalize and Uncapitalize change at most the first character, are idempotent, and Uncapitalize(Capitalize(s)) = s for every identifier starting with a lower-case letter; IsSymbol accepts exactly the strings of letters, digits and '_' starting with a letter.", "quantifier": "every byte string", "why_tests_cant": "All strings.", "anchors": ["misc.go:Capitalize", "misc.go:Uncapitalize", "misc.go:IsSymbolChar", "model.go:IsSymbol"]}
{"id": "C23", "title": "The parser terminates on every token stream", "statement": "ParseSadlString/ParseSadlFile return a model or an error for every input text (given a scanner that terminates), never looping forever on a text without include directives.", "quantifier": "every finite token sequence", "why_tests_cant": "Termination over all inputs.", "anchors": ["parser.go:ParseNoValidate", "parser.go:GetToken", "parser.go:UngetToken", "parser.go:ParseTypeSpecElements", "parser.go:parseHttpDirective"]}
{"id": "C24", "title": "The parser never crashes", "statement": "No input text makes the parser dereference nil or panic; malformed input yields an error.", "quantifier": "every finite token sequence", "why_tests_cant": "All malformed inputs.", "anchors": ["parser.go:parseOperationDirective", "parser.go:parseOperationInputs", "parser.go:parseOperationOutputs", "parser.go:parseOperationExceptions"]}
{"id": "C25", "title": "Only the options allowed in a position are accepted there", "statement": "An option list parses successfully in a position only if every option in it is one of the options documented for that position (or an x_ annotation) and has an argument of the right kind; the values recorded are those written, the last one winning.", "quantifier": "every option list and every position", "why_tests_cant": "All option lists.", "anchors": ["parser.go:ParseOptions", "parser.go:parseTypeOptions", "parser.go:parseStructFieldOptions", "parser.go:parseExtendedOption"]}
{"id": "C26", "title": "Http path templates are accepted exactly when well formed", "statement": "validateHttp accepts a path template exactly when, in the part before '?', braces are balanced, not nested, and no '/' occurs inside braces.", "quantifier": "every byte string", "why_tests_cant": "All strings.", "anchors": ["parser.go:validateHttpPathTemplate"]}
{"id": "C27", "title": "Every http parameter has exactly one source", "statement": "Each input of a parsed http action is classified as exactly one of header, path, query or body: header when a header option is given, otherwise path when {name} occurs before '?', otherwise query k when the query string contains k={name}, otherwise body.", "quantifier": "every template, parameter name and option list", "why_tests_cant": "All templates and names.", "anchors": ["parser.go:parameterSource", "parser.go:parseHttpSpec"]}
{"id": "C28", "title": "An accepted http action has a sane body discipline and defined types", "statement": "In a model returned by ParseSadl*, every http action has at most one body input, none unless the method is POST, PUT or PATCH, at most one body output, none for status 204/304, pairwise distinct exception types, and every input, output and exception type is defined.", "quantifier": "every accepted source text", "why_tests_cant": "All accepted models.", "anchors": ["parser.go:validateHttp", "parser.go:parseHttpExceptionSpec"]}
{"id": "C29", "title": "Every type reference in an accepted model resolves", "statement": "In a model returned by ParseSadl*, every type name used anywhere (struct fields at any depth, array items, map keys and items, union variants, unit-value parts, references, http and operation parameters) is defined in the model.", "quantifier": "every accepted source text and every reference in it", "why_tests_cant": "All accepted models.", "anchors": ["parser.go:Validate", "parser.go:validateStruct", "parser.go:validateArray", "parser.go:validateMap", "parser.go:validateUnitValue", "parser.go:validateReference", "parser.go:validateOperation"]}
{"id": "C30", "title": "Defaults are conforming and never on required fields", "statement": "In a model returned by ParseSadl*, a top-level struct field with a default value is not required and its default conforms to the field type; pattern and values never occur together.", "quantifier": "every accepted source text, every struct field", "why_tests_cant": "All accepted models.", "anchors": ["parser.go:validateStruct", "parser.go:validateStringDef"]}
{"id": "C31", "title": "Examples of an accepted model conform to their target", "statement": "In a model returned by ParseSadl*, each example whose target is a type (or a field of a struct type) conforms to that type, and each example whose target is an http request or response gives every required parameter a conforming value.", "quantifier": "every accepted source text, every example", "why_tests_cant": "All accepted models and values.", "anchors": ["parser.go:validateExample", "parser.go:validateExampleAgainstHttpRequest", "parser.go:validateExampleAgainstHttpResponse"]}
{"id": "C32", "title": "Literals survive print and parse", "statement": "Writing a JSON value as tokens (strings, numbers, booleans, null, nested arrays and objects, with or without line breaks and commas) and parsing it as a SADL literal gives back the same value.", "quantifier": "every value of any depth", "why_tests_cant": "Arbitrarily nested values.", "anchors": ["parser.go:parseLiteral", "parser.go:parseLiteralArray", "parser.go:parseLiteralObject"]}
{"id": "C33", "title": "Decompile then parse gives back the same types", "statement": "For a model in the expressible subset, DecompileSadl(model) parses, and the parsed model has the same type definitions (names, kinds, fields, constraints) in the same order.", "quantifier": "every model of the subset: any number and depth of definitions", "why_tests_cant": "Arbitrarily large models.", "anchors": ["unparser.go:sadlTypeSpec", "unparser.go:Generate", "parser.go:parseTypeDirective", "parser.go:ParseTypeSpecElements"]}
{"id": "C34", "title": "Decompile then parse gives back the same http actions", "statement": "For an http action in the expressible subset, its decompiled text parses back to the same action: method, path, name, inputs with their source, expected status and outputs, and exceptions.", "quantifier": "every http action of the subset", "why_tests_cant": "Arbitrarily many parameters.", "anchors": ["unparser.go:sadlHttpSpec", "unparser.go:sadlParamSpec", "parser.go:parseHttpDirective"]}
{"id": "C35", "title": "Including a file adds exactly its definitions", "statement": "After a successful include, the including schema has its own types followed by those of the included file, each marked with the file name, in order; nothing else of the schema's types changes; a name clash with the including file is an error.", "quantifier": "every pair of including and included texts", "why_tests_cant": "All pairs of schemas.", "anchors": ["parser.go:parseIncludeDirective", "parser.go:addAnnotation"]}
{"id": "C36", "title": "Generated files never silently overwrite", "statement": "Generator.WriteFile never changes an existing file unless force-overwrite is set, and after the first error no further file is created or changed.", "quantifier": "every sequence of writes, every initial file system, every failure point", "why_tests_cant": "Histories of arbitrary length and any failure point.", "anchors": ["generator.go:WriteFile", "generator.go:Emit", "generator.go:End"]}
{"id": "C37", "title": "OpenAPI export has no dangling references", "statement": "Every $ref in an exported OpenAPI document names a schema present in its components.", "quantifier": "every model accepted by the parser whose export succeeds", "why_tests_cant": "All models.", "anchors": ["openapi/export_openapi.go:ExportToOAS3", "openapi/export_openapi.go:exportTypeDef", "openapi/export_openapi.go:oasSchema"]}
{"id": "C38", "title": "OpenAPI export keeps every operation", "statement": "Every http action of the model appears in the exported document under its path (without query part) and method, with its name as operationId, and nothing else appears.", "quantifier": "every model whose export succeeds", "why_tests_cant": "All models, any number of actions.", "anchors": ["openapi/export_openapi.go:ExportToOAS3"]}
{"id": "C39", "title": "OpenAPI export keeps struct shape", "statement": "An exported struct has one property per field and lists exactly the required fields as required, in order.", "quantifier": "every struct definition", "why_tests_cant": "Any number of fields.", "anchors": ["openapi/export_openapi.go:exportStruct"]}
{"id": "C40", "title": "OpenAPI export then import preserves base types", "statement": "Exporting a field of base type T to OpenAPI and importing it back yields T.", "quantifier": "every base type and constraint combination", "why_tests_cant": "Includes constraint values from infinite domains.", "anchors": ["openapi/export_openapi.go:oasSchema", "openapi/import_openapi.go:convertOasType"]}
{"id": "C41", "title": "Smithy export then import preserves type names", "statement": "For every base scalar type, mapping it to its Smithy shape reference and back gives the same type, and for every user type name, qualifying it with a namespace and stripping the namespace gives back the name.", "quantifier": "every base type, every name, every namespace without '#'", "why_tests_cant": "All names and namespaces.", "anchors": ["smithy/export_smithy.go:typeReferenceByName", "smithy/export_smithy.go:EnsureNamespaced", "smithy/import_smithy.go:shapeRefToTypeRef", "smithy/import_smithy.go:stripNamespace"]}
{"id": "C42", "title": "Go export lays out packages and names injectively", "statement": "Generated Go type names are distinct for distinct type names, and the files of a package are placed directly below the output directory named by the configuration.", "quantifier": "every model with unique names", "why_tests_cant": "All name sets.", "anchors": ["golang/export_golang.go:nativeTypeName", "golang/export_golang.go:adjoin", "misc.go:Capitalize"]}
{"id": "C43", "title": "Request traces drop exactly the unset optional query parameters", "statement": "In an http trace, the request path keeps every query parameter that has a value and drops exactly those whose value is empty (the substituted value of an input the example does not give); the path part and the order are unchanged.", "quantifier": "every path with any number of query parameters", "why_tests_cant": "All paths.", "anchors": ["httptrace/export_http_examples.go:stripMissingOptionalQueryParams"]}
{"id": "C44", "title": "Error categories match status classes", "statement": "Smithy export labels an exception 'client' exactly for 4xx and 'server' exactly for 5xx status codes.", "quantifier": "every 32-bit status", "why_tests_cant": "2^32 inputs; a boundary error hides easily.", "anchors": ["smithy/export_smithy.go:httpErrorCategory"]}
{"id": "C45", "title": "Token pushback is faithful", "statement": "After reading a token and pushing it back, the next read returns the same token and the remaining stream is unchanged; block comments never influence the result of parsing.", "quantifier": "every token stream and every position", "why_tests_cant": "All streams.", "anchors": ["parser.go:GetToken", "parser.go:UngetToken"]}
{"id": "C46", "title": "Comments are merged without loss", "statement": "Merging comments is associative with the empty comment as identity on trimmed text, and the merged text consists of the trimmed comments joined by single spaces.", "quantifier": "every pair / triple of comment strings", "why_tests_cant": "All strings.", "anchors": ["parser.go:MergeComment"]}
{"id": "C47", "title": "GraphQL export emits only declared names", "statement": "Every type name mentioned in an exported GraphQL document is a GraphQL built-in scalar, a declared custom scalar, or a type defined in the document.", "quantifier": "every model whose export succeeds", "why_tests_cant": "All models.", "anchors": ["graphql/export_graphql.go:FromSadl", "graphql/export_graphql.go:typeRef", "graphql/export_graphql.go:scalarType"]}
{"id": "C48", "title": "Java package and import bookkeeping", "statement": "The import list of a generated Java file has no duplicates, contains every requested import and only those; reversing a domain into a package and back is the identity.", "quantifier": "every sequence of import requests, every domain name", "why_tests_cant": "All sequences.", "anchors": ["java/export_java.go:AddImport", "java/export_java.go:reverseStrings", "java/export_java.go:defaultPackage", "java/export_java.go:javaPackageToPath"]}
{"id": "C49", "title": "Configuration defaults", "statement": "GetConfigString/Bool/Int return the caller's default exactly when the key is absent or null; after Put they return the put value converted by the As* helper, and a boolean setting is false only for false, null or the text \"false\".", "quantifier": "every configuration, history of Puts, key and default", "why_tests_cant": "All histories of Puts and all value shapes.", "anchors": ["generator.go:GetConfigString", "generator.go:GetConfigBool", "generator.go:GetConfigInt", "struct_helpers.go:AsBool"]}
{"id": "C50", "title": "A file written without an error has the intended content", "statement": "If the generator reports no error after writing a file, that file exists with exactly the content given to WriteFile.", "quantifier": "every path, content, prior file system and every behaviour of the operating system", "why_tests_cant": "Tests run on a disk with room; a write that fails in Flush needs an injected fault, and all prefixes and sizes are possible.", "anchors": ["generator.go:WriteFile", "golang/export_golang.go:WriteGoFile", "java/export_java.go:WriteJavaFile"]}
{"id": "C51", "title": "Emitted text is collected completely and in order", "statement": "After Begin, End returns the concatenation of all texts given to Emit, in order, and nothing else.", "quantifier": "every sequence of emitted texts", "why_tests_cant": "All sequences, including texts emitted before Begin.", "anchors": ["generator.go:Begin", "generator.go:Emit", "generator.go:End"]}
{"id": "C52", "title": "Generated Go code mentions only known types", "statement": "Every Go type name used for a field is one of Go's own types, a type of the runtime library, a helper type the generated file declares, or a type declared in the model.", "quantifier": "every model and every field type", "why_tests_cant": "All models; a test compiles generated code only for the models it contains.", "anchors": ["golang/export_golang.go:nativeTypeName", "golang/golang_model.go:EmitType"]}
{"id": "C53", "title": "OpenAPI export ends", "statement": "Exporting an accepted model to OpenAPI returns a document or an error.", "quantifier": "every accepted model", "why_tests_cant": "Types may refer to each other without end; no number of tried models rules that out.", "anchors": ["openapi/export_openapi.go:ExportToOAS3", "openapi/export_openapi.go:oasSchema", "openapi/export_openapi.go:exportArrayTypeDef"]}
{"id": "C54", "title": "OpenAPI export then import preserves struct definitions", "statement": "Exporting a struct definition to OpenAPI and importing the resulting schema gives back a struct with the same fields: names, types, item types and requiredness.", "quantifier": "every struct definition of every model whose export succeeds", "why_tests_cant": "Any number of fields of any types.", "anchors": ["openapi/export_openapi.go:exportStructTypeDef", "openapi/import_openapi.go:convertOasType"]}
{"id": "C55", "title": "Everything in a literal counts", "statement": "A text accepted as a literal is a JSON value written out: apart from commas and line breaks between items nothing in it is ignored, and the value recorded is the one the text denotes.", "quantifier": "every token sequence", "why_tests_cant": "The accepted language is infinite; tests only show that some texts are accepted and some refused.", "anchors": ["parser.go:parseLiteral", "parser.go:parseLiteralObject", "parser.go:parseLiteralArray", "parser.go:parseLiteralString"]}
{"id": "C56", "title": "Decompiled operations and examples parse back", "statement": "DecompileSadl writes the operations and examples of a model so that parsing the text gives the same operations (name, annotations, inputs, outputs, exceptions) and the same examples (target, name, value).", "quantifier": "every model the parser returns", "why_tests_cant": "Operations with any number of inputs and outputs, values nested to any depth.", "anchors": ["unparser.go:sadlOperationSpec", "unparser.go:Generate", "parser.go:parseOperationDirective", "parser.go:parseExampleDirective"]}
{"id": "C57", "title": "Decompiling keeps the comments", "statement": "Comments of the schema, of types, fields, operations, actions and examples are the same after decompiling and parsing again, whatever their length.", "quantifier": "every model the parser returns", "why_tests_cant": "FormatComment wraps words into lines by their lengths and the parser joins the lines again; the lines depend on every word length.", "anchors": ["unparser.go:Generate", "unparser.go:sadlTypeSpec", "misc.go:FormatComment", "parser.go:mergeComment"]}
{"id": "C58", "title": "Decompiling and parsing is the identity", "statement": "Parsing the text DecompileSadl writes for a model gives a model equal to it, in every field and in its lookup tables, and accepted by validation if the first one was.", "quantifier": "every model the parser returns", "why_tests_cant": "Equality of whole models over all documents; a test compares a few files.", "anchors": ["unparser.go:DecompileSadl", "parser.go:ParseSadlString", "model.go:NewModel"]}
{"id": "C59", "title": "HTTP actions survive export to OpenAPI and import", "statement": "Exporting a model with ExportToOAS3 and reading the document with ToSadl gives back every action: same name, resource, comment, tags, method, path, inputs with their places and types, expected response and exceptions.", "quantifier": "every model and every order in which the maps of the document are met", "why_tests_cant": "Any number of actions that share paths, with inputs in any place; Go maps are walked in random order, so a test sees one order.", "anchors": ["openapi/export_openapi.go:ExportToOAS3", "openapi/import_openapi.go:ToSadl", "openapi/import_openapi.go:convertOasPath"]}
{"id": "C60", "title": "Reading an OpenAPI document does not depend on map order", "statement": "ToSadl gives the same model, up to the order of its definitions, whatever the order in which the schemas, properties, paths, responses and headers are met.", "quantifier": "every document and every order of its maps", "why_tests_cant": "The order is chosen at random by the Go runtime; a test run sees a few orders of a few documents.", "anchors": ["openapi/import_openapi.go:ToSadl", "openapi/import_openapi.go:convertOasPath", "openapi/import_openapi.go:convertOasType"]}
{"id": "C61", "title": "Which OpenAPI documents can be read", "statement": "ToSadl returns a model for every document whose schemas, parameters and responses are of the supported forms and an error for any other; it does not crash.", "quantifier": "every document", "why_tests_cant": "The set of documents is infinite, schemas nest to any depth.", "anchors": ["openapi/import_openapi.go:ToSadl", "openapi/import_openapi.go:convertOasPath", "openapi/import_openapi.go:sadlPrimitiveType"]}
{"id": "C62", "title": "The head of a model survives export to OpenAPI and import", "statement": "Name, namespace, version, comment, base path, server, licence and the other annotations of a model are the same after ExportToOAS3 and ToSadl.", "quantifier": "every model", "why_tests_cant": "All names, versions and sets of annotations; defaults put in for absent values are easy to miss.", "anchors": ["openapi/export_openapi.go:ExportToOAS3", "openapi/import_openapi.go:ToSadl", "model.go:IsSymbol"]}
{"id": "C63", "title": "Types accept the same data after export to OpenAPI and import", "statement": "For every type of a model, Validate accepts exactly the same values against the model and against the model read back from its OpenAPI document.", "quantifier": "every model, type, value and order of the maps of the document", "why_tests_cant": "Equality of two infinite sets of values, for recursive types.", "anchors": ["openapi/export_openapi.go:exportTypeDef", "openapi/import_openapi.go:convertOasType", "model.go:Validate"]}
{"id": "C64", "title": "Which models can be written as Smithy", "statement": "A model can be written as a Smithy document exactly if each type is of a kind that has a shape, each action has an expected response, each pagination annotation is a list of settings, each exception names a shape that is there, and the examples taken up are objects.", "quantifier": "every model whose names are identifiers (as the parser has it), every namespace and pair of suffixes", "why_tests_cant": "All combinations of types, actions, exceptions, pagination settings and examples; the crashes sit in rare combinations.", "anchors": ["smithy/export_smithy.go:FromSADL", "smithy/export_smithy.go:defineShapeFromTypeSpec", "smithy/export_smithy.go:paginatedTrait"]}
{"id": "C65", "title": "A written Smithy document has no dangling targets", "statement": "Every target of a member, item, key, input, output, error or operation in a written document is a shape of the document or of the Smithy prelude.", "quantifier": "every model that can be written, every shape, every target", "why_tests_cant": "Resolution is a property of all references of all documents.", "anchors": ["smithy/export_smithy.go:typeReference", "smithy/export_smithy.go:EnsureNamespaced", "smithy/export_smithy.go:FromSADL"]}
{"id": "C66", "title": "Every definition of a model has its shape", "statement": "Each type, action and operation of a model has a shape of its own in the document, of the right kind and with a member for each field, symbol, variant, input and output, and the service lists every operation; nothing overwrites anything else.", "quantifier": "every model, every definition", "why_tests_cant": "Shape names are derived (capital letter, suffixes), so clashes depend on all pairs of names.", "anchors": ["smithy/export_smithy.go:FromSADL", "smithy/export_smithy.go:shapeFromStruct", "smithy/export_smithy.go:shapeFromUnion", "smithy/export_smithy.go:capitalize"]}
{"id": "C67", "title": "Types survive export to Smithy and import", "statement": "Each type of a model is the same after FromSADL and ToSadl: kind, fields, symbols, variants, items, limits, comment and annotations.", "quantifier": "every model, type and behaviour of the decoder of numbers", "why_tests_cant": "Two mappings composed over all types; loss shows only for particular combinations.", "anchors": ["smithy/export_smithy.go:defineShapeFromTypeSpec", "smithy/import_smithy.go:importShape", "smithy/import_smithy.go:shapeRefToTypeRef"]}
{"id": "C68", "title": "HTTP actions survive export to Smithy and import", "statement": "Each action of a model is the same after FromSADL and ToSadl: name, method, path, inputs with their places, expected response, exceptions, comment and annotations.", "quantifier": "every model and action", "why_tests_cant": "All mixtures of path, query, header and body parameters and of exceptions shared between actions.", "anchors": ["smithy/export_smithy.go:FromSADL", "smithy/import_smithy.go:importOperationShape", "smithy/export_smithy.go:httpTrait"]}
{"id": "C69", "title": "Operations survive export to Smithy and import", "statement": "Each operation of a model is the same after FromSADL and ToSadl: name, comment, inputs, outputs and exceptions.", "quantifier": "every model and operation", "why_tests_cant": "All numbers and types of inputs, outputs and exceptions.", "anchors": ["smithy/export_smithy.go:FromSADL", "smithy/import_smithy.go:importOperationShape"]}
{"id": "C70", "title": "The head of a model survives export to Smithy and import", "statement": "Name, version, comment, base path and annotations of a model are the same after FromSADL and ToSadl.", "quantifier": "every model and every set of import options", "why_tests_cant": "All names and versions, models with and without operations.", "anchors": ["smithy/export_smithy.go:FromSADL", "smithy/import_smithy.go:ToSadl"]}
{"id": "C71", "title": "Examples survive export to Smithy and import", "statement": "Each example of a model is there again, for the same target, after FromSADL and ToSadl, and no other.", "quantifier": "every model, example and action", "why_tests_cant": "Examples are joined by name across requests, responses and exceptions; all combinations.", "anchors": ["smithy/export_smithy.go:sadlExamplesForAction", "smithy/import_smithy.go:importOperationShape"]}
{"id": "C72", "title": "Types accept the same data after export to Smithy and import", "statement": "For every type of a model, Validate accepts exactly the same values against the model and against the model read back from its Smithy document.", "quantifier": "every model, type and value", "why_tests_cant": "Equality of two infinite sets of values, for recursive types.", "anchors": ["smithy/export_smithy.go:defineShapeFromTypeSpec", "smithy/import_smithy.go:importShape", "model.go:Validate"]}
{"id": "C73", "title": "Which Smithy documents can be read", "statement": "ToSadl gives a model for a Smithy document exactly if it has one service (or the one asked for), each shape is of a known type with the parts its type needs, each target looked up is there, each trait is known or declared, and the names of the resulting types and actions differ; it crashes exactly if the service is settled and some shape breaks these rules.", "quantifier": "every document and every choice of options", "why_tests_cant": "The set of documents is infinite; crashes need missing shapes or members.", "anchors": ["smithy/import_smithy.go:ToSadl", "smithy/import_smithy.go:importShape", "smithy/import_smithy.go:importTraitsAsAnnotations", "model.go:NewModel"]}
{"id": "C74", "title": "Which GraphQL documents can be read", "statement": "Import of GraphQL files gives a model exactly if there is one file, it can be read and parsed, each definition is of a kind that is taken up, each field is a name or a list of names (or a required list of required lists), and the names of the types differ from each other, from ID and from the base types. It crashes exactly if the first definition that cannot be taken up is an object.", "quantifier": "every file system, parser, configuration and document", "why_tests_cant": "The set of documents is infinite, and types of fields nest without bound.", "anchors": ["graphql/import_graphql.go:Import", "graphql/import_graphql.go:gqlSchema", "graphql/import_graphql.go:gqlStruct", "graphql/import_graphql.go:typeName"]}
{"id": "C75", "title": "What a GraphQL document means", "statement": "The model that is read has the type ID and then, in order, one type for each enum, each union and each object that no schema definition above names as an operation type, with the fields, symbols, members and descriptions (on one line) of the definition; it has no actions, operations or examples.", "quantifier": "every document that can be read, every definition, every configuration", "why_tests_cant": "All documents, with any number of definitions in any order.", "anchors": ["graphql/import_graphql.go:gqlSchema", "graphql/import_graphql.go:gqlStruct", "graphql/import_graphql.go:gqlEnum", "graphql/import_graphql.go:gqlUnion", "graphql/import_graphql.go:commentValue", "graphql/import_graphql.go:convertTypeName"]}
{"id": "C76", "title": "Types survive export to GraphQL and import", "statement": "Each type of a model is the same after FromSadl and Import: fields and their types, symbols, variants, comments.", "quantifier": "every model, configuration of custom scalars and type", "why_tests_cant": "Two mappings composed over all types.", "anchors": ["graphql/export_graphql.go:FromSadl", "graphql/export_graphql.go:typeRef", "graphql/import_graphql.go:Import"]}
{"id": "C77", "title": "Types accept the same data after export to GraphQL and import", "statement": "For each type of a model, Validate accepts the same values against the model and against the model read back from its GraphQL text.", "quantifier": "every model, type and value", "why_tests_cant": "Equality of two infinite sets of values, for recursive types.", "anchors": ["graphql/export_graphql.go:FromSadl", "graphql/import_graphql.go:Import", "model.go:Validate"]}
{"id": "C78", "title": "A model survives being written as JSON and loaded", "statement": "Loading the JSON text of a model (Pretty, as cmd/sadl writes it) gives the same model. Exactly: it succeeds if the model names a SADL version and its numbers fit, and gives the model with defaults and examples as plain JSON values.", "quantifier": "every model whose sizes and statuses are Go integers, every decoder of numbers", "why_tests_cant": "The set of models is infinite and types nest without bound; whether a difference can arise anywhere is a statement about all of them.", "anchors": ["misc.go:Pretty", "parser.go:LoadModel", "schema.go:Schema", "decimal.go:MarshalJSON", "decimal.go:UnmarshalJSON", "timestamp.go:MarshalJSON"]}
{"id": "C79", "title": "Types accept the same data after JSON", "statement": "If no list of allowed values is empty and the bounds are read as they are written, Validate accepts the same values for each type of a model and of the model loaded from its JSON text.", "quantifier": "every such model, type name, value and context", "why_tests_cant": "Equality of two infinite sets of values, for recursive types.", "anchors": ["parser.go:LoadModel", "misc.go:Pretty", "model.go:Validate", "model.go:ValidateAgainstTypeSpec"]}
{"id": "C80", "title": "Examples that conform still conform after JSON", "statement": "An example that Validate accepts for a type is accepted after the model has been written as JSON and loaded.", "quantifier": "every model, example and type", "why_tests_cant": "Needs all values of all types, through two representations.", "anchors": ["parser.go:LoadModel", "model.go:Validate", "model.go:ValidateNumber", "timestamp.go:UnmarshalJSON"]}
{"id": "C81", "title": "Loading a JSON text never crashes", "statement": "LoadModel returns a model or an error for every text; it crashes only if null stands among the types or the actions, which no written text has.", "quantifier": "every JSON text", "why_tests_cant": "Absence of a crash over all trees.", "anchors": ["parser.go:LoadModel", "model.go:NewModel"]}
{"id": "C82", "title": "The tool reads the files it is given, by their extension and contents", "statement": "For a list of files and directories, the tool reads exactly the files whose extension it knows and that one of the formats of the extension accepts (SADL, Smithy, OpenAPI, Swagger in this order for .json); they must all be of one format, for SADL one file, parsed, or loaded if it is JSON; otherwise it reports an error.", "quantifier": "every list of arguments, file system and behaviour of the format readers", "why_tests_cant": "The file system and the readers' answers are unbounded; tests try a few directories.", "anchors": ["cmd/sadl/import.go:ImportFiles", "cmd/sadl/import.go:expandPaths", "cmd/sadl/import.go:ValidImportFileType"]}
{"id": "C83", "title": "Finding out the format of a file never crashes", "statement": "ImportFiles never crashes before it calls an importer.", "quantifier": "every list of arguments, file system and behaviour of the format readers", "why_tests_cant": "Absence of a crash over all files.", "anchors": ["cmd/sadl/import.go:ValidImportFileType", "parser.go:IsValidFile", "parser.go:LoadModel"]}
{"id": "C84", "title": "-t reads only files of one type", "statement": "With -t, only files of that type are read.", "quantifier": "every file type, list of arguments, file system and behaviour of the format readers", "why_tests_cant": "The claim is about all mixtures of files.", "anchors": ["cmd/sadl/main.go:main", "cmd/sadl/import.go:ImportFiles"]}
{"id": "C85", "title": "Options reach the generator", "statement": "The generator is run with the value of the last -x for a key, else -f for force-overwrite, else with what its section of the configuration says.", "quantifier": "every configuration, generator, list of options and key", "why_tests_cant": "All strings as options, all configurations.", "anchors": ["cmd/sadl/main.go:main", "data.go:Put", "data.go:GetData"]}
{"id": "C86", "title": "The shorthands are the generators with one more option", "statement": "java-server, java-client, go-server and go-client run the generator java or go with the option server or client and otherwise the same options.", "quantifier": "every configuration and list of options", "why_tests_cant": "All configurations and options.", "anchors": ["cmd/sadl/main.go:main", "cmd/sadl/export.go:ExportFiles"]}
{"id": "C87", "title": "-n and -ns override name and namespace of the source", "statement": "The model that is read has the name and namespace given with -n and -ns.", "quantifier": "every source, name and namespace", "why_tests_cant": "All sources of all formats.", "anchors": ["cmd/sadl/main.go:main", "parser.go:ParseNoValidate", "graphql/import_graphql.go:gqlSchema", "smithy/import_smithy.go:ToSadl", "openapi/import_openapi.go:Import"]}
{"id": "C88", "title": "What an OpenAPI document means", "statement": "Reading an OpenAPI document gives one type for each named schema and one action for each operation, with the fields, bounds, parameters, body, answers and comments of the document, and nothing else.", "quantifier": "every document that can be read", "why_tests_cant": "All schemas, nested to any depth, and all operations with any parameters and responses.", "anchors": ["openapi/import_openapi.go:ToSadl", "openapi/import_openapi.go:convertOasType", "openapi/import_openapi.go:convertOasPath"]}
{"id": "C89", "title": "Types read from OpenAPI accept the data the schemas describe", "statement": "A value validates against a type read from an OpenAPI document exactly if the named schema describes the value.", "quantifier": "every document, every named schema in it, every value", "why_tests_cant": "All values of any depth, recursive schemas.", "anchors": ["openapi/import_openapi.go:convertOasType", "model.go:Validate"]}
{"id": "C90", "title": "Looking whether a file is Swagger does not crash", "statement": "For every file, asking whether it is a valid Swagger 2 file gives yes or no.", "quantifier": "every decoded JSON or YAML text", "why_tests_cant": "All documents, schemas nested to any depth.", "anchors": ["openapi/import_swagger.go:IsValidSwaggerFile", "openapi/import_swagger.go:toV3Schema", "openapi/import_swagger.go:toV3Operation"]}
{"id": "C91", "title": "Which Swagger documents can be read", "statement": "A Swagger 2 document can be read exactly if its translation to OpenAPI 3, in which definitions become schemas, body parameters request bodies and media types the keys of contents, can be read.", "quantifier": "every document with at most one success answer per operation", "why_tests_cant": "All documents.", "anchors": ["openapi/import_swagger.go:ImportSwagger", "openapi/import_swagger.go:toV3", "openapi/import_openapi.go:ToSadl"]}
{"id": "C92", "title": "Types read from Swagger accept the data the definitions describe", "statement": "A value validates against a type read from a Swagger 2 document exactly if the definition describes the value.", "quantifier": "every document, every definition in it, every value", "why_tests_cant": "All values of any depth, recursive definitions.", "anchors": ["openapi/import_swagger.go:toV3Schema", "model.go:Validate"]}
{"id": "C93", "title": "What a Swagger document means", "statement": "Reading a Swagger 2 document gives one type for each definition and one action for each operation, with the parameters, body, answers and comments of the document, and its title, version, server and license.", "quantifier": "every document that can be read", "why_tests_cant": "All documents.", "anchors": ["openapi/import_swagger.go:toV3Paths", "openapi/import_swagger.go:toV3Operation", "openapi/import_swagger.go:toV3Servers", "openapi/import_swagger.go:toV3Info"]}
{"id": "C94", "title": "A trace shows one exchange for each named request", "statement": "The trace of a model has, action by action, one exchange for each name of a request example of the action: the last such example, with its path, headers and body, followed by the last response or exception example of the same name, if there is one, with its status, headers and body. No name is repeated and none is left out.", "quantifier": "every model, every order in which the Go map of names is walked, every rendering of numbers, JSON, dates and status texts", "why_tests_cant": "All models; the order of a Go map differs from run to run.", "anchors": ["httptrace/export_http_examples.go:Export", "httptrace/export_http_examples.go:generateHttpTrace", "httptrace/export_http_examples.go:generateHttpRequest", "httptrace/export_http_examples.go:generateHttpResponse"]}
{"id": "C95", "title": "When a trace crashes", "statement": "Exporting the trace of a model crashes exactly if an action has a request example that is not an object, or an answering example to one of its requests that is not an object, or such an answer while the action has no expected response. Sources that the parser accepts can be traced.", "quantifier": "every model; every accepted source", "why_tests_cant": "Crashes for all inputs.", "anchors": ["httptrace/export_http_examples.go:generateHttpTrace"]}
{"id": "C96", "title": "The request line of a trace has the values of the example", "statement": "In the request line of a trace every variable of the path template is replaced by the value of the example, and query items without a value are left out.", "quantifier": "every action, example and template", "why_tests_cant": "All templates and values.", "anchors": ["httptrace/export_http_examples.go:generateHttpRequest", "httptrace/export_http_examples.go:stringExample"]}
{"id": "C97", "title": "Messages of a trace can be read back", "statement": "A message of a trace, read by the rules for messages (first line, header lines, blank line, body), is the request or answer that was meant, in only one way, and the length that an answer states is the length of its body.", "quantifier": "every action and example", "why_tests_cant": "All values.", "anchors": ["httptrace/export_http_examples.go:generateHttpRequest", "httptrace/export_http_examples.go:generateHttpResponse"]}
{"id": "C98", "title": "The generated Go file declares what the model says", "statement": "The Go file of types that the generator writes is its package line, its imports and a list of declarations: an interface with one method for each action; a request and a response struct for each action; for each type, in order, the declaration of its kind (struct with one field per field, in order, under the JSON name of the model, omitempty exactly for optional fields; union with one tag and one field per variant; enum with its symbols and texts; named string, array, map, number), an Error method exactly for types used as exceptions; the helper types Timestamp and Decimal exactly if they are mentioned.", "quantifier": "All models that NewModel accepts, both values of the runtime option, all service and package names.", "why_tests_cant": "A test compares a few files; it does not show that every field of every model has its JSON name, its type and its omitempty.", "anchors": ["golang/golang_model.go: CreateModel, EmitType, EmitStructType, EmitUnionType, EmitEnumType", "golang/export_golang.go: nativeTypeName, WriteGoFile"]}
{"id": "C99", "title": "When generating Go types crashes", "statement": "Generating the Go file of types crashes exactly if an action has an empty name or no expected response, a member has an empty name or a type without Go counterpart, or a type is of a kind that is not supported (Bool, Bytes, Timestamp, Any, UnitValue, or another name); it ends with a file otherwise. A type has a Go counterpart exactly if it is defined, and, for arrays and maps, its parts are defined and are not themselves Array or Map.", "quantifier": "All models, both values of the runtime option.", "why_tests_cant": "The crashes are nil dereferences and panics in combinations of kinds and positions that a test suite would have to guess.", "anchors": ["golang/golang_model.go: EmitType, EmitUnitValueType", "golang/export_golang.go: nativeTypeName, capitalize"]}
{"id": "C100", "title": "The imports of the generated Go file are those it uses", "statement": "The import list of the generated Go file has no package twice and names exactly the packages that its declarations refer to.", "quantifier": "All models for which a file is written.", "why_tests_cant": "Only compiling every possible generated file would show a missing or an unused import.", "anchors": ["golang/export_golang.go: addImport, WriteGoFile", "golang/golang_model.go: EmitTimestamp, EmitDecimal, EmitEnumType"]}
{"id": "C101", "title": "Names in the generated Go file are declared once", "statement": "In the generated Go file every type name that is used is declared, no name is declared twice, and no struct has a field twice.", "quantifier": "All models for which a file is written.", "why_tests_cant": "Clashes need particular pairs of names (two enums with a common symbol, x and X), which tests do not try.", "anchors": ["golang/golang_model.go: EmitType, EmitEnumType, EmitStructType"]}
{"id": "C102", "title": "Data of a type goes through the generated Go types unchanged", "statement": "JSON data that conforms to a declared type can be decoded with encoding/json into the Go type generated for it, and encoding the decoded value gives the same data back: the same members, the same strings and booleans, equal numbers, regardless of the order of members.", "quantifier": "All models that the Go generator accepts, with and without the runtime library; all declared types, including recursive ones; all conforming JSON data.", "why_tests_cant": "A test decodes a few documents; whether a member disappears depends on the combination of the declared type, whether it is optional, the value (zero, empty), the name of the field, annotations of enum symbols and the -r flag, and data nests without bound.", "anchors": ["golang/golang_model.go: EmitTypeDefs, EmitStructType, EmitUnionType, EmitEnumType, EmitDecimal, EmitTimestamp", "golang/export_golang.go: nativeTypeName"]}
{"id": "C103", "title": "The generated Go server has one handler and one route per action, with the declared inputs, outputs and errors", "statement": "The generated server file is exactly: the head with its imports, an adaptor with one handler per action in the order of the source, one route per action with its method and the path before the query, and a fixed library. Each handler fills the request field of each input from its own query, header or path parameter, or from the body, with the default declared for it; calls the operation; answers each declared exception with its status and others with 500; and otherwise sets the declared headers and answers with the expected status and the first output that is not a header. The file imports what it uses and nothing else.", "quantifier": "All models, with and without the runtime library, all service and package names.", "why_tests_cant": "The text depends on every combination of parameter kind, base type, default and status; tests compare at most a few generated files.", "anchors": ["golang/golang_server.go: CreateServer, EmitServer, serverTemplate, paramAccessor, stringDefault, timestampDefault, intDefault"]}
{"id": "C104", "title": "Generating a Go server fails exactly for four kinds of models", "statement": "No server file is written, and an error is returned, exactly if some action has no name, or no expected result, or an input outside the body whose base type is not String, UUID, Timestamp or an integer, or an exception whose type has no Go type. In all other cases a file is written.", "quantifier": "All models, with and without the runtime library, all service and package names.", "why_tests_cant": "The failing cases are panics inside template functions that tests never reach; that there are no others needs all models.", "anchors": ["golang/golang_server.go: EmitServer, paramAccessor", "golang/export_golang.go: EmitTemplate, WriteGoFile, nativeTypeName"]}
{"id": "C105", "title": "The handlers of the generated Go server keep Go's rules for variables", "statement": "In every generated handler, each := defines a new variable, each variable that is used is defined, and each variable that is defined is used.", "quantifier": "All actions of all models for which a server is generated.", "why_tests_cant": "The tests never compile generated servers; which combinations of query, body, status and outputs break the rules needs all of them.", "anchors": ["golang/golang_server.go: EmitServer, serverTemplate"]}
{"id": "C106", "title": "The generated Go client has one method per action that sends all inputs and reads all outputs", "statement": "The generated client file is exactly: the head with its imports, the client type with its constructor, and one method per action in the order of the source. Each method sends every input of its action in the place declared for it, and reads the declared outputs and exceptions from an answer with their status.", "quantifier": "All models, with and without the runtime library, all service and package names.", "why_tests_cant": "The text depends on every combination of input place, base type, output and exception; tests never generate a client.", "anchors": ["golang/golang_client.go: CreateClient, EmitClient, clientTemplate, notSet, typeFormat"]}
{"id": "C107", "title": "Generating a Go client fails exactly for two kinds of models", "statement": "No client file is written, and an error is returned, exactly if some action has no expected result, or an output or exception whose type has no Go type. In all other cases a file is written.", "quantifier": "All models, with and without the runtime library, all service and package names.", "why_tests_cant": "The failing cases are panics inside template functions that tests never reach; that there are no others needs all models.", "anchors": ["golang/golang_client.go: EmitClient", "golang/export_golang.go: EmitTemplate, WriteGoFile, nativeTypeName"]}
{"id": "C108", "title": "A handler of the generated Go server receives the values that a request carries", "statement": "For every input outside the body, the field of the request that the operation gets has the value that the text in its declared place (query, header or path) stands for in its type, and the declared default, or the zero value, if there is no text there. A text that stands for no value of the type is refused.", "quantifier": "All models from which a server can be generated, all actions, inputs and requests.", "why_tests_cant": "Over all request texts, types, places and defaults; no test of the repository runs a generated server.", "anchors": ["golang/golang_server.go: serverTemplate (stringParam, timestampParam, intParam), paramAccessor"]}
{"id": "C109", "title": "What is given to a method of the generated Go client is what the handler of the generated Go server receives", "statement": "For each action, each input of a call of the client method is received by the handler with the value that was given.", "quantifier": "All models from which both can be generated, all actions, all values of inputs.", "why_tests_cant": "The two files are generated from different templates; only running both on all values would show where they disagree.", "anchors": ["golang/golang_server.go: serverTemplate (stringParam, timestampParam, intParam), paramAccessor", "golang/golang_client.go: CreateClient, clientTemplate"]}
{"id": "C110", "title": "A request for an action reaches its handler in the generated Go server", "statement": "Each request with the method of an action and a path that fits its template is handled by the handler of that action.", "quantifier": "All models whose paths consist of fixed segments and segments that are a variable, all request paths.", "why_tests_cant": "Over all pairs of actions and all paths; shadowing depends on the order of the source.", "anchors": ["golang/golang_server.go: serverTemplate (InitServer)"]}
{"id": "C111", "title": "The generated Go client understands the answers of the generated Go server", "statement": "For each action the client returns a result exactly for the expected status, and an error of the type that the operation raised if the action declares it.", "quantifier": "All models from which both can be generated, all actions, all errors that an operation can raise.", "why_tests_cant": "Over all declarations of errors; two generated files have to agree.", "anchors": ["golang/golang_server.go: serverTemplate (stringParam, timestampParam, intParam), paramAccessor", "golang/golang_client.go: CreateClient, clientTemplate"]}
{"id": "C112", "title": "Exactly which examples an OpenAPI document shows, and where", "statement": "In the document exported from a model the example at a place (a type, a request body, a parameter, a response) and under a name is that of the last example of the model that belongs there, whatever order the paths are visited in; the example of an input appears on the parameter that stands for it.", "quantifier": "All models whose types and actions can be exported, all their examples, all orders of the Go maps.", "why_tests_cant": "Over all models, examples and map orders; a test sees one order of a map.", "anchors": ["openapi/export_openapi.go: Export (247-344), FindOperation"]}
{"id": "C113", "title": "Exporting the examples of an accepted model does not crash", "statement": "If the types and actions of a model can be exported to OpenAPI, its examples can be too, in every order in which Go visits the paths.", "quantifier": "All models whose types and actions can be exported, all their examples, all orders of the Go maps.", "why_tests_cant": "Over all models and map orders; one of the crashes depends on the order of a map.", "anchors": ["openapi/export_openapi.go: Export (247-344), FindOperation"]}
{"id": "C114", "title": "The generated Java files say exactly what the model says", "statement": "When generating Java succeeds, the files are those of the types that need a class (structs, enums, unions, unit values), the service interface and the request and response of every action, and the fixed helper files; each text is a fixed function of a description of the class, and that description is related to the model alone: members in order, their Java types and annotations, the classes of structs written in place. The imports of a file are exactly those asked for by its class and the classes before it, in order and without repetition; the Timestamp and Util helper files are there exactly if some class or action asks for them. Every use of a type has one Java type and one list of annotations.", "quantifier": "All models, all options of the generator, all orders of the Go map of nested classes.", "why_tests_cant": "Over all models, options and map orders; a test compares one file.", "anchors": ["java/export_java.go: CreatePojoFromDef, createStructPojo, TypeName", "java/java_model.go: CreateModel", "java/java_util.go", "java/java_timestamp.go"]}
{"id": "C115", "title": "Generating Java succeeds for accepted models", "statement": "Generating the Java classes ends without a crash or an error exactly if every type has a Java type, no field is called package, no inner class has the name of its class, members have names, units are declared types and actions declare what they answer; every model the parser accepts is of this kind.", "quantifier": "All models, all options, all orders of Go maps; and all accepted SADL sources.", "why_tests_cant": "Over all models; one of the failures is an endless recursion.", "anchors": ["java/export_java.go: createStructPojo, TypeName, createUnitValuePojo", "java/java_model.go: CreateInterface, CreateRequestPojo, CreateResponsePojo"]}
{"id": "C116", "title": "The generated Java classes mention only names Java can find", "statement": "Every type and annotation that a generated class mentions - in variables, constructors, getters, builders and on the class - is a name of java.lang, is imported by the file, or has a file of its own in the same package; the interface mentions only request and response classes that have files.", "quantifier": "All models, all options of the generator, all orders of Go maps, all generated files and all names in them.", "why_tests_cant": "The imports of a file depend on all the classes before it and on every nested type behind a member; a test compiles one model.", "anchors": ["java/export_java.go: createStructPojo, createUnionPojo, createUnitValuePojo, TypeName, addImport", "java/java_model.go: CreateModel"]}
{"id": "C117", "title": "The generated Java server is exactly the described one", "statement": "Generating the server for a model adds exactly these files: the resource class with one method per action - method, path, parameters with the place each is read from, its Java type and its default, the request built from them, the call, the status, headers and body of the answer and what happens with each error - and, on demand, a launcher and stubs; it fails exactly when the model, an action or a type has no such description.", "quantifier": "All models, all options, all states of the generator, all fuel bounds, both directions.", "why_tests_cant": "The text of a method depends on every type behind a parameter and on all options at once; tests compare one service.", "anchors": ["java/java_server.go: CreateServer, resourceSig, resourceBody, handlerSig, serverTemplate", "java/export_java.go: TypeName"]}
{"id": "C118", "title": "The generated Java client is exactly the described one", "statement": "Generating the client for a model adds exactly the configuration interface and the client class with one method per action - path and query values, headers, what is sent as the body, the expected status, what is read from the answer and which class is thrown for which status - and fails exactly when an action or type has no such description.", "quantifier": "All models, all options, all states of the generator, all fuel bounds, both directions.", "why_tests_cant": "The success condition couples methods, names and types of every action; tests call one client.", "anchors": ["java/java_client.go: CreateClient, clientTemplate"]}
{"id": "C119", "title": "The generated Java client speaks to the generated Java server", "statement": "For every action the client sends every input where the server looks for it and nothing else, expects the status and finds every output where the server puts it, and throws for every status the class the server catches.", "quantifier": "All models read from text (and all models in the exact form), all actions, all inputs, outputs and errors.", "why_tests_cant": "Two generators with their own rules for places; agreement must hold for every combination of places, methods and types.", "anchors": ["java/java_server.go: resourceSig, resourceBody", "java/java_client.go: clientTemplate", "java/export_java.go: EntityNameType"]}
{"id": "C120", "title": "The Java generator does what its configuration says", "statement": "Each setting of the Java generator - name, domain, package, source directory, packages of server, client and model, and the switches - has the value configured for it and otherwise its documented default, where the package comes from the configuration, the namespace or the reversed domain, in this order; every other setting has no effect.", "quantifier": "All configurations, models and host names.", "why_tests_cant": "Every setting has several sources with precedence, and the effect of one depends on others; a test fixes one configuration.", "anchors": ["java/export_java.go: NewGenerator, defaultDomain, reverseStrings", "data.go: Get, GetString, GetBool"]}
{"id": "C121", "title": "The Java export generates exactly the parts that are switched on", "statement": "Exporting to Java gives the files of the model, then of the server, then of the client, each only if switched on, and pom.xml only if asked for; it succeeds exactly if each of the parts switched on can be generated.", "quantifier": "All models, all configurations, all orders of Go maps.", "why_tests_cant": "The parts share one generator with one error and one set of collected imports; tests switch on one combination.", "anchors": ["java/export_java.go: Export", "java/java_model.go: CreateModel", "java/java_server.go: CreateServer", "java/java_client.go: CreateClient", "java/java_pom.go: CreatePom"]}
{"id": "C122", "title": "Every generated Java class has a file of its own", "statement": "No two generated Java classes go to the same file, so that after an export every class is on disk, and the interface that server and client implement is one of them.", "quantifier": "All models and configurations, all earlier contents of the disk.", "why_tests_cant": "Whether two names meet depends on all pairs of type, action and helper names after capitalisation; tests use names that do not.", "anchors": ["java/export_java.go: CreateJavaFile, CreateModel", "java/java_model.go: CreatePojo", "generator.go: WriteFile"]}
{"id": "C123", "title": "The OpenAPI import takes every document the OpenAPI export writes", "statement": "A document exported from a model passes the checks the importer makes on reading it: required fields are there and every path begins with a slash.", "quantifier": "All models whose export succeeds, with any annotations, base path and actions.", "why_tests_cant": "The checks depend on the name, the annotations and every path together; tests export complete models.", "anchors": ["openapi/model.go: Validate, ValidateInfo, ValidatePaths", "openapi/export_openapi.go: ExportToOAS3", "openapi/import_openapi.go: Load"]}
{"id": "C124", "title": "Every setting of the Go export has the configured value or its documented default", "statement": "Exporting to Go uses, for name, package, model, server, client and runtime, the value given in the configuration; without one the model's name, its namespace or else main, and on, off, off, off. No other key has an effect. The package clause is the last label of the package.", "quantifier": "All models and all configurations, including settings of the wrong type.", "why_tests_cant": "Settings interact with defaults from the model and with values of every type; tests export with one configuration.", "anchors": ["golang/export_golang.go: NewGenerator", "generator.go: GetConfigString, GetConfigBool"]}
{"id": "C125", "title": "A Go export writes exactly the files of the parts switched on, up to the first part that fails", "statement": "If the types can be generated, the export leaves the model, server and client files of the parts switched on in three different places with the text of C98, C103 and C106, returns an error exactly if a part switched on cannot be generated, and changes nothing else. It crashes exactly if the types are switched on and cannot be generated.", "quantifier": "All models, configurations, output directories and initial contents of the disk, with and without force; files can be opened and there is room.", "why_tests_cant": "Which parts fail depends on every type and action; what is left on disk after a failure in one part is not looked at by tests.", "anchors": ["golang/export_golang.go: Export, NewGenerator, WriteGoFile", "golang/golang_model.go: CreateModel", "golang/golang_server.go: CreateServer", "golang/golang_client.go: CreateClient", "generator.go: WriteFile"]}
{"id": "C126", "title": "The OpenAPI import takes over every example of a schema, for a type or field of the imported model", "statement": "Importing an OpenAPI document gives one SADL example for every example in the schemas of its components, and its target is a type of the imported model or a field of one, so that the parser accepts it.", "quantifier": "All documents: any nesting of objects, arrays and references, any examples.", "why_tests_cant": "Where an example ends up depends on the nesting and on references; tests import documents without examples or with examples on top.", "anchors": ["openapi/import_openapi.go: ToSadl, convertOasType, oasTypeRef, validSadlName", "parser.go: validateExample"]}
{"id": "C127", "title": "A GraphQL export is a GraphQL document with the definitions of the model", "statement": "The text that the GraphQL export prints is a document of the GraphQL language, it can be read in one way only, and what is read are the types, fields, symbols and members made from the model: every name and type stands where it belongs and every comment stays a comment.", "quantifier": "All models and configurations of custom scalars whose names are GraphQL names.", "why_tests_cant": "The text is put together from names and comments by formatting; a test compares it for chosen models, not for every comment or every empty body, and does not show that it can be read in one way only.", "anchors": ["graphql/export_graphql.go: FromSadl, EmitEnumDef, EmitStructDef, EmitUnionDef, typeRef, Emit"]}
