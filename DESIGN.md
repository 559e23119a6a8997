# Formal model of PyBindGen: design

PyBindGen is a code generator: the observable effects of its API are (a) the text / method tables it
emits and (b) what that text does when compiled and run. The model therefore has two levels.

* **Generator level** (`rocq/theories/Model/*.v`): executable Gallina functions that mirror the Python
  functions branch by branch. Python exceptions are values (`Err e`). Mutable Python objects become
  records returned by each operation. Every definition cites the file and lines of /repo it models, and
  says where it simplifies.
* **Generated-code level** (`Model/MiniC.v`, `IntHandlers.v`, `Ownership.v`, `Containers.v`, `SharedPtr.v`,
  `Import.v`, ...): small statement languages or event systems with interpreters. The generator functions
  emit statements of that language; run-time checks are decided by an arbitrary oracle (or by universally
  quantified conversions and C++ functions), so "for every run" is a universal quantifier.

Specifications (`Spec/*.v`) are small, do not call the model's algorithms, and say what the property means.
Proofs are in `Proofs/*.v`; `Properties/*.v` hold only the final theorems, with `Print Assumptions`,
the `Example`s that show the hypotheses are met by non-trivial cases, and the `_refuted` theorems.

Where the code violates the natural form of a property, there is a `..._refuted` theorem with a
concrete witness, and the theorem proved is the strongest true form; the hypothesis that excludes the
witness is visible in the theorem's statement. `MANIFEST.json` lists the theorems of each property.

## Per property

| id | model (Model/) | specification (Spec/) | proofs (Proofs/) | method |
|----|-------|-------|-------|-------|
| C01 | CodeSink | SinkSpec | SinkProofs | induction over operation lists against a trace specification |
| C02 | Decls | DeclSpec | DeclProofs | invariant on the counter table: names handed out have distinct decodings |
| C03 | Decls (join_ctype_and_name) | DeclSpec | DeclProofs | string induction |
| C04 | CodeBlock | BlockSpec | BlockProofs | refinement of the block to a stack of deferred cleanups, over all histories |
| C05 | ForwardWrapper, MiniC, Demo | HandlerSpec, WrapperSpec, BodySpec | WrapperProofs, WrapperBody, GenSteps, GenProofs | invariant over emitted statements, for every oracle (= every outcome of every run-time check) |
| C06 | Params | ParamSpec | ParamProofs | induction over add_parameter histories |
| C07 | PyArgs | ArgSpec | ArgProofs | refinement of PyArg_ParseTupleAndKeywords to a declarative binding relation |
| C08 | ForwardWrapper, WrapperCall | WrapperSpec, BodySpec | CallProofs | case analysis and induction on the build-value list |
| C09 | ForwardWrapper | WrapperSpec | WrapperProofs | case analysis |
| C10 | MiniC (lock state) | WrapperSpec | LockProofs | invariant over statements; refuted when a C++ exception is thrown with unblock_threads |
| C11 | ReverseWrapper, DemoReverse | ReverseSpec | ReverseProofs, ReverseTop | same interpreter |
| C12 | Tokenizer, CType | TypeSpec | LexProofs, TypeProofs, ParseProofs | print/tokenise/parse round trip by induction on type trees |
| C13 | CType (reorder_modifiers) | TypeSpec | ReorderProofs, MeaningProofs | denotation of declarators; refuted for `**` |
| C14 | CType (TypeTraits) | TypeSpec | TraitsProofs | same denotation |
| C15, C16 | TypeMatcher | MatcherSpec | MatcherProofs | invariants over registration histories; a measure bounds alias lookup |
| C17 | Mangle | MangleSpec | MangleProofs | character-wise induction; injectivity refuted |
| C18 | Errors, Module | PolicySpec | PolicyProofs, PolicyTop, OfferProofs, PruneProofs, PruneTop | comparison of a run with error handler and the run of the pruned script |
| C19 | Aggregator, Overloading | DispatchSpec, OverloadSpec | DispatchProofs, DelegateProofs | induction over delegates; loop termination measure |
| C20 | Overloading | OverloadSpec | OverloadProofs | induction over the wrappers |
| C21-C23 | Ownership | OwnSpec | OwnHeap ... OwnTop (16 files) | one heap invariant preserved by every event of every allowed history, including re-entrant destructors |
| C24 | Custodians, Ownership | CustodianSpec | CustodianProofs, OwnWard | generation and heap effect |
| C25 | TypeMap, Hierarchy | NarrowSpec | TypeMapProofs | induction over the chain of run-time types |
| C26 | Hierarchy | HierarchySpec | HierarchyProofs, HierarchyMore, HierarchyTop | well-founded hierarchies, correctness of the breadth first enumeration |
| C27 | Hierarchy | HierarchySpec | AbstractProofs, PureProofs, PureScript, HelperProofs | invariants over declaration scripts |
| C28 | Module, PyState | ModuleSpec | ModuleSteps, ModulePaths, ModuleNames, ModuleProofs | invariants over all declaration scripts |
| C29 | Module | SectionSpec | SectionTop, PlaceProofs, OnceProofs, CompleteProofs, ScriptProofs | invariants over scripts and generation |
| C30 | IntHandlers | IntSpec | IntProofs, IntTop, IntBack | lia per handler on unbounded integers with C conversions; several handlers refuted |
| C31 | ForwardWrapper (throw), MiniC | WrapperSpec | EscapeProofs, EscapeTop | runs in which the call throws, for every table of declared exceptions |
| C32 | Containers | ContainerSpec | ContainerConv, ContainerHeap, ContainerRep, ContainerSteps, ContainerTop | representation invariant over legal histories; element conversions are universally quantified |
| C33 | NumberOps | NumberSpec | NumberProofs | induction over tables and lines of inheritance |
| C34 | ReverseWrapper | ReverseSpec | ProxyProofs (theorems in P11_Reverse.v) | interpreter of C11 |
| C35 | ReverseWrapper, ForwardWrapper | SetterSpec | SetterProofs (theorems in P11_Reverse.v) | interpreter |
| C36 | Hierarchy | SettingsSpec | SettingsProofs | lines of first parents |
| C37 | Module | TableSpec | TableProofs | invariants over scripts |
| C38 | Module, Mangle | NameSpec | NameProofs | invariants over scripts |
| C39 | Compare | CompareSpec | CompareProofs | induction over tables |
| C40 | Sequence | SequenceSpec | SequenceProofs | case analysis over CPython's slot functions |
| C41-C43 | BasicHandlers, Utf8, PyArgs, WrapperCall | BasicSpec | BasicFrame, BasicLocal, BasicInts, BasicText, BasicNames, BasicTop, Utf8Proofs | frame lemma per handler, induction over parameter lists |
| C44 | MethodTable, Hierarchy | MethodTableSpec, TableSpec | TableGen, TableFold, TableDeclared, TableOrder, TableLookup, TableTop | invariants over scripts, then lookup along Python's MRO |
| C45 | Dispatch, MethodTable | VirtualSpec | DispatchHelper, DispatchTop | run-time dispatch on top of C26, C27, C44 |
| C46 | SharedPtr | SharedPtrSpec | SharedPtrProofs, SharedPtrInv, SharedPtrSteps, SharedPtrTop, SharedPtrRefs | one invariant preserved by every event |
| C47 | Import | ImportSpec | ImportProofs, ImportContents, ImportOrder, ImportNames | induction over trees of modules; the initialisation order satisfies every dependency |
| C48 | Attributes, MethodTable | AttributeSpec | AttributeProofs, AttributeRun | invariant over the mutable value types during declaration and generation; lookup along types and metaclasses |
| C49 | Docstring | DocstringSpec | DocstringProofs | the written field, a lexer for string literals and CPython's signature removal; induction over the text |
| C50 | Annotations | AnnotationSpec | AnnotationRx, AnnotationItems, AnnotationProofs | a regular expression matcher against declarative readings of a line; induction over the block, the history and the items |
| C51 | ScanTypes | ScanSpec | ScanProofs, ScanComplete | invariants of a stack machine over the pending scopes; a measure for termination; ranks against the counts of postponement |
| C52 | ScanMembers | ScanMembersSpec | ScanMembersProofs | the two loops over the members as a concatenation of what each member gives; case analysis per member against a declarative description |
| C53 | PygenScript | PygenSpec | PygenProofs | the text of every sink is a concatenation of functions (induction on the tree of namespaces, with indentation levels); it is read by a small reader of Python and run with a big-step semantics, which is deterministic; hypotheses: distinct names of functions in one file, sections distinct |
| C54 | PygenArgs | PygenArgsSpec | PygenArgsProofs | repr and the pieces of _pygen_kwargs as text; a reader of Python expressions with fuel; each kind of text is read back whatever follows it, combined for lists and calls by induction on values |
| C55 | FunctionScan.v | FunctionScanSpec.v | FunctionTextProofs.v, FunctionScanProofs.v, FunctionScanTop.v | relation from a function with its annotations to the one call that describes it, proved equivalent to the code: Dyck-like grammar for the text of template arguments, induction on strings for find/split, stable insertion sort, invariants of the annotation loop over a dict without repeated keys |
| C56 | OperatorScan.v | OperatorScanSpec.v | OperatorScanProofs.v | relation from an operator and its arguments to script calls, memory calls and complaints; both directions by cases, then induction over the list of operators |
| C57 | ClassNotes.v | ClassNotesSpec.v | ClassNotesProofs.v, ClassNotesTop.v | relation says from a class and its annotations to keyword arguments (first annotation about each), proved equivalent to the setdefault loop by induction over the annotations |
| C58 | EnumScan.v | EnumScanSpec.v | EnumScanProofs.v | relation from enumerations to script lines and memory calls by induction over the list; the lines are read back with the expression reader of C54 (call_text) |

Every property of `properties.jsonl` could be expressed in a model; none is `not_applicable`.

## Trusted base

* The kernel of Coq 8.16.1 (no kernel check is switched off; no `native_compute`; `vm_compute` is used in
  `Example`s and in witnesses of `_refuted` theorems, so the kernel's virtual machine is trusted there).
* `Print Assumptions`, run by the build for every theorem in `Properties/`, prints
  "Closed under the global context" for all of them: no axiom is used, not even of the standard library.
  (The gate's listing also names the `Coq.ssr.ssrunder.*` constants, which are opaque constants of the ssreflect plugin's
  library that some imported standard file loads; no theorem depends on them.)
* The reading of the Python code into Gallina. There is no extraction and the code is not run: the citations
  are the only link.
* The hand-written semantics of what generated code calls: PyArg_ParseTupleAndKeywords, Py_BuildValue,
  PyType_Ready, PyObject_IsTrue, rich comparison, number, sequence and attribute lookup protocols of CPython,
  reference counts and the cycle collector, PyGILState/PyEval; C integer conversions; std::vector/list/set/map
  iteration; std::shared_ptr counts; C++ virtual dispatch and object layout with several bases.

### Modelled parts of /repo

| file | modelled |
|------|----------|
| typehandlers/codesink.py | all of CodeSink, MemoryCodeSink, FileCodeSink, NullCodeSink |
| typehandlers/base.py | DeclarationsScope, CodeBlock, ParseTupleParameters, BuildValueParameters, ForwardWrapperBase.generate_body and flags, ReverseWrapperBase.generate, join_ctype_and_name, TypeMatcher, error handling helpers |
| typehandlers/ctypeparser/ | tokenizer, parse_type, normalize_type_string, TypeTraits, reorder_modifiers |
| typehandlers/inttype.py, booltype.py, doubletype.py, floattype.py, stringtype.py, pyobjecttype.py, voidtype.py | the run-time effect of each handler's code (parameters, references, pointers, returns; both directions for integers) |
| typehandlers/smart_ptr.py | shared pointer handlers and policy |
| overloading.py | normalisation, aggregation, dispatch code |
| utils.py | mangling, write_preamble pieces used by the above |
| function.py, cppmethod.py | call generation, throw clauses, method tables, virtual proxies, parent callers, clones |
| cppclass.py | memory policies, hierarchy, helper class, constructors, method tables, number/sequence/comparison slots, type map, deallocation and collector code, import/generate, custodians |
| cppattribute.py | setters and getters of attributes; metaclass initialisation |
| container.py, cppclass_container.py | conversions, iterators, initialisation |
| module.py, enum.py, cppexception.py | declaration API, names, sections, method tables, one-time definitions, initialisation code |
| settings.py, wrapper_registry.py | error handler policy, registries |

### Not modelled

The parts of the castxml reader (castxmlparser.py) that are not in the table above (the scans of types, methods, enums and
containers, and pygccxml itself), `_generate_str`, the quoting of
docstrings, the textual layout of the generated file beyond
what the properties name (indentation of sinks, order of sections), unterminated comments in type names, memory
exhaustion, threads other than through the interpreter lock.

## Findings

Behaviour found while modelling; those named in MANIFEST.json notes have a `_refuted` theorem.

* Custom_name equal to the default mangled name is treated as absent, so prefix stripping still applies
* Distinct modules can share the C prefix (submodule "a_b" vs "a"."b")
* Add_custom_function_wrapper without wrapper_body recurses forever
* Set_module overwrites a custom wrapper's wrapper_base_name
* A custom wrapper's flags are lost after reset
* Add_cpp_namespace returns an existing submodule of the same name even if its C++ namespace differs
* A typedef's short alias is registered in all enclosing modules
* A declined generation error is offered to the handler twice
* Overloads across sections go to the first wrapper's section
* Two containers with the same converter name abort generation (KeyError)
* Generating a module twice is a TypeError
* Pure virtual fatal path calls PyErr_Print after the lock was released
* A void method without override calls the parent while holding the interpreter lock
* Normalisation of type names is not idempotent on `::::a` and `:: int`
* `const char **` is reordered to `char ** const`
* TypeTraits("char**").type_is_pointer is False
* An unterminated comment in a type name loops forever
* A handler registered under a name with outer qualifiers is never found
* Only the latest alias is followed
* Converter functions of `ns::Foo` and `ns__Foo` collide
* Overload normalisation reports a failing wrapper to the handler twice
* Conflicting docstrings abort even with an error handler
* A parse error with a NULL exception value is treated as success by the overload dispatcher
* Have_pure_virtual_methods is cached and goes stale
* Allow_subclassing and narrowing are inherited only from the first parent
* The breadth first order of ancestors can place an ancestor before its descendant
* Ancestors of a diamond are enumerated twice
* Parent=[] is an IndexError
* The type map never matches a registered root class via the inheritance walk
* A by-reference return of a C++-owned Python-derived instance gives a double delete
* Transfer of an unowned object is accepted
* None with null_ok and transfer_ownership crashes
* FreeFunctionPolicy ignores the not-owned flag
* An object returned by reference and then owned leaks
* Calling `__init__` twice leaks
* Transfer of self in an override gives a double delete
* Reference counting with caller_manages_return=False is unbalanced
* The collector may clear a lent wrapper
* An entry of a live wrapper is lost when another wrapper of the same object is emptied
* Tp_clear leaves a stale registry entry
* No wards without allow_subclassing
* Wards are compared with ==
* A NULL pointer return skips post-call custodian code
* Wards are added even when the call then throws
* Free_after_copy uses wrapper.function_name (AttributeError for methods)
* Add_custodian_and_ward with -1 and postcall=False is a NameError
* The 'b' parse unit means unsigned byte, so int8_t references and pointers reject negatives and wrap 128..255
* Int8_t returns from Python reject -128 and accept 128
* Unsigned 32/64 bit parameters are masked silently
* Some small integer parameters lack the lower bound check
* Reference handlers pass the value instead of its address in overrides
* UnsignedIntPtr array code uses the non-existent PyLong_AsUnsignedInt
* Bool handlers ignore errors of PyObject_IsTrue
* Float parameters ignore default_value
* Glib::ustring buffers are never freed
* A PyObject transfer is not undone when a later check fails
* Char and C string returns come after output parameters
* A std::string created for C++ leaks if parsing fails
* `self` is not reserved, so a method parameter of that name clashes
* Queue/stack/priority_queue containers have no clear or iterators
* A failed conversion leaves a partial target
* Container iterators are instantiable from Python with a NULL iterator
* A class with only unary operators gets no number methods
* In-place operators work on a copy
* C++ exceptions of operators escape
* != is not derived from ==
* Any comparison operator in a derived class hides all those of its base
* PyObject_IsInstance believes a faked `__class__`
* Classes with comparisons are unhashable
* Sequence positions are truncated to 32 bits
* `del x[i]` crashes
* Exceptions of `__setitem__`, `__len__` and `__contains__` are replaced
* Names declared in two ancestor classes are not re-wrapped, so the wrapper of a non-first base is called with a wrong pointer
* `__copy__` of a copyable second base applied to an uncopyable class reads a wrong address
* Clones drop throw, unblock_threads and custodians
* Super() of an inherited (not redeclared) virtual recurses forever
* Private virtuals not overridden in Python are not run
* Shared pointer parameters ignore default_value
* With a helper class or `__copy__` the code for shared pointers does not compile
* Constructed instances of shared pointer classes are not registered, so identity is lost
* Re-running `__init__` on a returned wrapper leaves a stale registry entry
* Nested enumerations ignore values_prefix
* The tp_name of a type uses its C++ name even with custom_name
* A type nested in a class of an enclosing module or in an imported class is a KeyError at generation
* A nested class with container traits is an AttributeError
* A base in a submodule is readied before its own bases are assigned and loses them
* A parent exception in a submodule is silently replaced by Exception
* A class missing in the module it is imported from becomes a null pointer silently
* Castxmlparser.lookup_return warns for a valid caller_owns_return
* Two attributes declared with one ReturnValue object read each other's member
* Instance attributes of a second parent are read at the wrong address and its static attributes are not found
* Deleting a writable attribute crashes
* An instance and a static attribute of one name give C functions of the same name
* An unimplemented convert_python_to_c of an attribute aborts generation although the error handler would skip it
* Docstrings are written without escaping: a quote or a newline does not compile and a backslash changes the text
* Overloads without docstrings are not described
* An indented `/* -#- ... -#- */` annotation is ignored without a warning
* A declaration in the first line of a file takes annotations from its end
* `name = value` loses the value
* Annotations of one parameter on two lines are not joined
* A boolean annotation without value is an AttributeError
* Unparsable annotations are reported two lines too early
* Parameter annotations of constructors are not read
* A chain of eleven classes whose names are in the reverse order of inheritance, or two classes with casting operators to each other, stop the header scan with an AssertionError (castxmlparser.py:1172)
* A nested class whose base is declared beside its outer class but has a later name is left out
* The search for unregistered conversion targets stops at the first one (castxmlparser.py:1275), so a target behind a foreign one is lost when its name is later
* The annotation import_from_module of an enumeration is written to the script but not passed to add_enum in memory
* The annotation as_method without of_class is an AssertionError
* A pure virtual method annotated ignore, or a pure virtual operator other than (), is forgotten by the header scan and the class counts as concrete
* A default or copy constructor annotated ignore is declared all the same (castxmlparser.py:2176-2188)
* The names of the functions of the script join namespaces with "_", so that for a::b_c and a_b::c (or a class types_x and a namespace x_methods) one function replaces the other and the types of one namespace are declared twice and those of the other never (C53_clash_refuted
* Castxmlparser.py:1558, 2445, 905)
* A function with the annotation as_method or is_constructor_of loses unblock_threads and throw (castxmlparser.py:2345-2385)
* Lookup_return warns that caller_owns_return is an invalid annotation although it uses it (castxmlparser.py:350)
* Check_template/get_template_arg look for the first occurrence of the function name anywhere in the demangled text ("void bar::a<int>(int)" with the name "a" is not recognized as an instance), split template arguments at commas inside of angle brackets, and keep the blank after commas, so template_instance_names with two types never match (C55)
* As_method or is_constructor_of without a value is ignored without a warning, and unblock_threads, throw, name and deprecated are dropped for functions that become methods or constructors (C55)
* In-place operators that return void, and operators with a number as the result (Vec*Vec), are left out by the header scanner with only a warning that the result class is not registered (C56)
* The class annotation template_instance_names is warned about as ignored although the scanner uses it, and a class whose destructor is not listed gets destructor_visibility=None, which CppClass asserts against (C57)
* Import_from_module of an enumeration is written to the script but not passed to add_enum in memory, so a direct scan defines the enumeration anew (C58)
