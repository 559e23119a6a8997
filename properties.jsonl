{"id": "C01", "title": "Code sinks deliver every line once, in order, at the accumulated indentation", "statement": "Whatever sequence of writeln/indent/unindent calls is made on a MemoryCodeSink, flushing it into another sink appends exactly the lines that were written, in writing order, each once, each prefixed by the receiving sink's indentation followed by the indentation in force when it was written (trailing blanks removed), and leaves the source empty so a second flush adds nothing. unindent with no matching indent raises IndexError and changes nothing; a NullCodeSink refuses to be flushed.", "quantifier": "all sequences of writeln/indent/unindent on the source, all texts (including embedded newlines), all states of the receiving sink", "why_tests_cant": "Arbitrary interleavings of nested indentation and multi-line writes; any finite set of call sequences samples them.", "anchors": ["pybindgen/typehandlers/codesink.py: CodeSink._format_code, indent, unindent, MemoryCodeSink.writeln, flush_to, flush, FileCodeSink.writeln, NullCodeSink"]}
{"id": "C02", "title": "Names handed out by a declarations scope never clash", "statement": "All variable names returned by declare_variable and reserve_variable on one scope (and on scopes sharing it as parent) are pairwise distinct, provided no requested base name ends in a decimal digit; the first request for a base name gets exactly that name. Without the proviso the guarantee fails: base names foo2, foo, foo are answered foo2, foo, foo2.", "quantifier": "all sequences of declare/reserve requests with arbitrary base names, over any tree of scopes sharing one parent", "why_tests_cant": "Uniqueness is over unbounded request histories and all names; the known doctest tries one history.", "anchors": ["pybindgen/typehandlers/base.py: DeclarationsScope.declare_variable, reserve_variable, clear"]}
{"id": "C03", "title": "Declarations put the variable name after the type, separated so the C declarator is unchanged", "statement": "join_ctype_and_name(ctype, name) ends with name and, with blanks ignored, is ctype followed by name; the name is separated from the preceding character by a blank or a '*', so it can never fuse with the type's last identifier. It raises exactly when ctype is empty (IndexError) or consists only of '*' (ValueError).", "quantifier": "all C type strings and names", "why_tests_cant": "Over all type strings; doctests try five.", "anchors": ["pybindgen/typehandlers/base.py: join_ctype_and_name"]}
{"id": "C04", "title": "An error check releases exactly the resources still registered, newest first", "statement": "At every point of any history of add_cleanup_code / cancel / write_error_check on a chain of code blocks, the error branch emitted runs exactly the cleanups registered and not cancelled so far in that block in reverse order of registration, followed by those of its predecessors in the same manner, and then the block's error return; the caller's extra failure code comes first. Cancelling removes exactly that cleanup; cancelling twice raises KeyError.", "quantifier": "all histories of cleanup registration/cancellation/error checks on chains of code blocks of any length", "why_tests_cant": "Histories are unbounded; wrong order or a missed cleanup shows only on a particular error path.", "anchors": ["pybindgen/typehandlers/base.py: CodeBlock.add_cleanup_code, remove_cleanup_code, get_cleanup_code, write_error_check, write_cleanup, write_error_return"]}
{"id": "C05", "title": "Every run of a generated forward wrapper releases what it acquired exactly once", "statement": "For every wrapper body assembled from parameter and return handlers that pair each acquisition with a cleanup, and for every outcome of its run-time checks, execution reaches a return, and each resource acquired before the failing (or final) point has its cleanup executed exactly once, in reverse order of acquisition, before the return; nothing not acquired is released. This needs before-call cleanups to be registered before any after-call check is written, which the generation order guarantees except for handlers that register before-call cleanups while converting the return value.", "quantifier": "all lists of parameter handlers, all return handlers, all results of the generated run-time checks", "why_tests_cant": "Exponentially many error paths in wrappers of arbitrary length.", "anchors": ["pybindgen/typehandlers/base.py: ForwardWrapperBase.generate_body, CodeBlock"]}
{"id": "C06", "title": "Argument parsing format is well formed and aligned with the declared parameters", "statement": "The parameter list produced for PyArg_ParseTuple has one '|' iff some parameter is optional, placed immediately before the first optional one; units and C targets appear in the same order as the parameters; prepended ones come first, latest first. ValueError is raised iff an optional parameter precedes a required one. The keyword list is present iff all parameters are named, in the same order, absent iff none is named; otherwise ValueError.", "quantifier": "all sequences of add_parameter calls with prepend/optional/name options", "why_tests_cant": "All lengths and option combinations.", "anchors": ["pybindgen/typehandlers/base.py: ParseTupleParameters.add_parameter, get_parameters, get_keywords, is_empty"]}
{"id": "C07", "title": "A Python call binds each declared parameter to the argument given for it", "statement": "For every wrapper signature of uniquely named parameters (required ones first) and every Python call (positional arguments, then keyword arguments in any order), the parse call generated succeeds iff every required parameter is supplied and no parameter is supplied twice, unknown, or in excess; on success each parameter's C variable holds the argument supplied for that parameter, and omitted optional ones keep their initial value.", "quantifier": "all signatures, all positional/keyword splits, all keyword orders", "why_tests_cant": "Combinatorial in arity, optionality and keyword permutations.", "anchors": ["pybindgen/typehandlers/base.py: ParseTupleParameters, ForwardWrapperBase.generate_body"]}
{"id": "C08", "title": "A wrapper returns None, the bare value, or a tuple, with the C return value first", "statement": "A wrapper with no produced values returns None (one reference owned by the caller); with one returns it unboxed; with n>=2 returns the n-tuple. The C return value comes first and the out parameters follow in declaration order for all return handlers that prepend their value (int, bool, float, class, container, PyObject, std::string); the char and C-string handlers do not prepend, so with them the return value comes last.", "quantifier": "all sets of out/inout parameters and all return handlers", "why_tests_cant": "All arities and handler combinations.", "anchors": ["pybindgen/typehandlers/base.py: BuildValueParameters, ForwardWrapperBase.generate_body", "pybindgen/typehandlers/stringtype.py: CharReturn, CStringReturn", "pybindgen/typehandlers/inttype.py: *Return.convert_c_to_python"]}
{"id": "C09", "title": "Method flags match the argument parsing code emitted", "statement": "A wrapper is flagged METH_NOARGS iff it emits no argument parsing, METH_VARARGS without METH_KEYWORDS iff it emits PyArg_ParseTuple, and both iff it emits PyArg_ParseTupleAndKeywords, so the interpreter always calls it with the argument objects its code reads; forcing keyword parsing gives all overloads the same flags.", "quantifier": "all parameter lists, names and force_parse settings", "why_tests_cant": "Mismatch means reading an uninitialised argument; it depends on every combination of named/unnamed/forced parameters.", "anchors": ["pybindgen/typehandlers/base.py: ForwardWrapperBase.generate_body, get_py_method_def_flags", "pybindgen/overloading.py: OverloadedWrapper._normalize_py_method_flags"]}
{"id": "C10", "title": "The interpreter lock is held around every Python operation in forward wrappers", "statement": "With unblock_threads set, on every path on which the C++ call does not throw, the lock is released after all Python-side conversions and before the C++ call and re-acquired before anything else runs, and every return happens with the lock held. Paths where a declared C++ exception is caught violate this: the handler sets a Python exception and returns without the lock.", "quantifier": "all parameter/return handlers, all outcomes of run-time checks, threads initialised or not, any C++ exception", "why_tests_cant": "Lock imbalance manifests only under concurrency on particular error paths.", "anchors": ["pybindgen/typehandlers/base.py: ForwardWrapperBase.generate_body", "pybindgen/function.py: Function.generate_call", "pybindgen/cppmethod.py: CppMethod.generate_call"]}
{"id": "C11", "title": "Reverse wrappers (C++ calling Python) acquire and release the lock exactly once on every path", "statement": "Whatever the outcome of the Python call, of argument conversion and of result parsing, a reverse wrapper acquires the interpreter lock before touching Python and releases that acquisition exactly once, last, before returning; the Python result reference is released exactly once on every path reached after it was obtained.", "quantifier": "all virtual-method proxies over any handlers, all run-time outcomes", "why_tests_cant": "Error paths multiply with every handler.", "anchors": ["pybindgen/typehandlers/base.py: ReverseWrapperBase._generate_gil_code, generate", "pybindgen/cppmethod.py: CppVirtualMethodProxy.generate"]}
{"id": "C12", "title": "Type names are recognised up to spelling", "statement": "Normalising a C type name is idempotent: normalising an already normalised name returns it unchanged, so registering and looking up under any spelling with the same normal form agree, and the printed form of a parsed type parses back to the same tokens.", "quantifier": "all C type names built from identifiers, pointers, references, template and function parentheses", "why_tests_cant": "Infinite family of nested template spellings.", "anchors": ["pybindgen/typehandlers/ctypeparser/__init__.py: parse_type, normalize_type_string, CType.__str__", "pybindgen/typehandlers/ctypeparser/tokenizer.py: GetTokens"]}
{"id": "C13", "title": "Moving const/volatile to their canonical place preserves the type", "statement": "reorder_modifiers only moves const and volatile, keeps all other tokens in order, and leaves the denoted C type unchanged: each qualifier still applies to the same pointer level. This holds when pointer stars are separate tokens; for adjacent stars written without a blank ('const char **') the tokenizer yields one '**' token and the qualifier is moved across both levels, changing the type.", "quantifier": "all sequences of specifiers, qualifiers, stars and references at any template depth", "why_tests_cant": "Infinite family of qualifier placements.", "anchors": ["pybindgen/typehandlers/ctypeparser/__init__.py: CType.reorder_modifiers, parse_type", "pybindgen/typehandlers/ctypeparser/tokenizer.py: GetTokens"]}
{"id": "C14", "title": "Type traits describe the declared type", "statement": "For any declarator of separate stars/references with qualifiers, the reported traits (is const, is pointer, is reference, target type, target is const) are those of the outermost declarator level of the type, and the stripped variants (no const, no modifiers) denote the type with exactly those removed.", "quantifier": "all specifier/qualifier/pointer combinations in canonical form", "why_tests_cant": "Infinite family; the code special-cases last and second-to-last tokens.", "anchors": ["pybindgen/typehandlers/ctypeparser/__init__.py: TypeTraits"]}
{"id": "C15", "title": "A registered type handler is found under every equivalent spelling and is never silently replaced", "statement": "After register(name, handler), lookup of any name with the same normal form returns that handler with no transformation until the matcher changes, a second registration under an equivalent spelling raises ValueError and changes nothing, and registrations of other types do not disturb it. Lookup of an unknown type tries transformations in registration order and returns the first that leads to a registered handler; otherwise raises TypeLookupError.", "quantifier": "all registration histories and all lookups", "why_tests_cant": "Unbounded registration histories.", "anchors": ["pybindgen/typehandlers/base.py: TypeMatcher.register, lookup, register_transformation, add_type_alias"]}
{"id": "C16", "title": "Alias resolution always terminates", "statement": "However type aliases are declared, including cycles, lookup terminates after trying each alias at most once, and a name whose alias chain (each link having one alias) reaches a registered type resolves to its handler. With several aliases for one name only the first is followed, so an alias declared later can remain unreachable.", "quantifier": "all alias graphs", "why_tests_cant": "Cyclic alias graphs of any size.", "anchors": ["pybindgen/typehandlers/base.py: TypeMatcher.lookup, _raw_lookup_with_alias_support, add_type_alias"]}
{"id": "C17", "title": "Mangled names are C identifiers, but distinct types may share one", "statement": "For every type name consisting of identifier characters, blanks and the punctuation '<>,&*:()', the mangled name contains only identifier characters; mangling leaves identifiers unchanged. Mangling is not injective: ',', ' ' and ':' map to the same character, so distinct types can share a converter-function name and then the first generated converter is used for both.", "quantifier": "all type names over the supported characters", "why_tests_cant": "Collisions occur between pairs of arbitrary names.", "anchors": ["pybindgen/utils.py: mangle_name, get_mangled_name", "pybindgen/module.py: Module.get_python_to_c_type_converter_function_name, generate_python_to_c_type_converter"]}
{"id": "C18", "title": "Configuration errors are raised, or skip only the wrapper concerned", "statement": "Without an error handler every error propagates unchanged. With one, the error of a declaration is offered to it once: if accepted the declaration answers None and changes nothing, if declined the same error is raised, and a script with such calls is as good as the script without them; errors not about types are raised without consulting it, and success never consults it. Generation with a handler that accepts produces the code of the modules without the functions that cannot be generated; every function missing from the output was offered and accepted; an error that comes out is that of a declared function or type.", "quantifier": "all declaration scripts over any tree of modules, all types and bodies that fail in any way, all handlers", "why_tests_cant": "Behaviour over all exception classes and handler policies.", "anchors": ["pybindgen/utils.py: call_with_error_handling, eval_param, eval_retval", "pybindgen/settings.py: error_handler", "pybindgen/module.py: ModuleBase.add_function, add_container, do_generate", "pybindgen/overloading.py: OverloadedWrapper.generate"]}
{"id": "C19", "title": "Overload dispatch calls the first overload whose arguments convert", "statement": "A call to an overloaded name tries the overloads in registration order, returns the result (value or C++-side exception) of the first whose argument conversion succeeds and never runs a later one; if none does, it raises TypeError carrying all the conversion errors in order. Every exception object saved from a failed attempt is released exactly once on every path and no Python error is left pending on success.", "quantifier": "all numbers of overloads and all conversion outcomes", "why_tests_cant": "2^n outcome combinations for n overloads; leaks are invisible to functional tests.", "anchors": ["pybindgen/overloading.py: OverloadedWrapper.generate"]}
{"id": "C20", "title": "Overloads that cannot be generated are dropped without affecting the others", "statement": "Flag normalisation removes only wrappers whose flags cannot be determined or differ from the first remaining one, keeps the order of the others, terminates, and leaves wrappers that all have the same flags; an overload set left empty is skipped as a whole. It needs an error handler to be installed: without one, dropping a wrapper raises AttributeError.", "quantifier": "all wrapper lists and flag outcomes", "why_tests_cant": "Loop with removal during iteration over arbitrary lists.", "anchors": ["pybindgen/overloading.py: OverloadedWrapper._normalize_py_method_flags, generate"]}
{"id": "C21", "title": "Wrapped objects are deleted exactly once under the default memory policy", "statement": "For every history of constructing, copying, returning (owned or by reference), transferring ownership to C++ and dropping wrappers of a class with the default policy, whose C++ side honours the declared ownership, no C++ object is deleted twice, none owned by C++ is deleted, and an owned object is deleted when its wrapper dies.", "quantifier": "all histories of API calls on any number of objects", "why_tests_cant": "Double free and leaks depend on unbounded histories.", "anchors": ["pybindgen/cppclass.py: MemoryPolicy, common_shared_object_return, CppClass._get_delete_code, _generate_destructor, CppClassPtrParameter.convert_python_to_c, CppClassPtrReturnValue"]}
{"id": "C22", "title": "Reference-counted classes keep a balanced reference count", "statement": "For a class with a reference-counting policy, the reference count of each C++ object equals the references held by C++ plus the number of live wrappers, for every history of constructor, return, parameter-transfer and deallocation events with caller_owns_return honoured; the object is freed exactly when the count drops to zero. Returns declared caller_manages_return=False break the balance, since deallocation releases a reference that was never taken.", "quantifier": "all histories over any number of objects and wrappers", "why_tests_cant": "Counts drift only along particular histories.", "anchors": ["pybindgen/cppclass.py: ReferenceCountingPolicy, ReferenceCountingMethodsPolicy, ReferenceCountingFunctionsPolicy, FreeFunctionPolicy, common_shared_object_return"]}
{"id": "C23", "title": "The wrapper registry maps a live C++ object to its live wrapper", "statement": "With the std::map registry, for every history of register, lookup and unregister events, a lookup returns the wrapper last registered for the object unless that object was unregistered since, never a deallocated wrapper, and takes a new reference to it. Objects constructed from Python are not registered, so returning one by pointer creates a second wrapper.", "quantifier": "all histories of wrapper creation, return and deallocation", "why_tests_cant": "Identity and dangling entries depend on histories.", "anchors": ["pybindgen/wrapper_registry.py: StdMapWrapperRegistry", "pybindgen/cppclass.py: _generate_destructor, common_shared_object_return"]}
{"id": "C24", "title": "A custodian keeps its wards alive", "statement": "With with_custodian_and_ward relations declared, after a successful call each ward object stays alive at least as long as its custodian object, repeated calls add a ward only once, and all wards are released when the custodian dies.", "quantifier": "all sets of relations, all call histories", "why_tests_cant": "Lifetime property over unbounded histories.", "anchors": ["pybindgen/cppmethod.py: CustodianAndWardError paths, add_custodian_and_ward", "pybindgen/cppclass.py: scan_custodians_and_wards, _add_ward, implement_parameter_custodians_precall, implement_parameter_custodians_postcall"]}
{"id": "C25", "title": "Automatic type narrowing picks the most derived known wrapper type", "statement": "The type map returns the wrapper registered for the exact dynamic type; otherwise (with GCC) that of the nearest registered ancestor on the line of single inheritance that itself has exactly one base; otherwise the static type. The class at the end of that line (no base, or several) is never found by the walk even when registered, but the answer is still the nearest registered class whenever the static type is a registered ancestor on the line. The search terminates for every type chain, and earlier lookups never change an answer.", "quantifier": "all histories of registrations and lookups, all dynamic type chains, all class hierarchies", "why_tests_cant": "All hierarchies and registration subsets.", "anchors": ["pybindgen/cppclass.py: default TypeMap code (lookup_wrapper)"]}
{"id": "C26", "title": "Inheritance queries agree with the declared parents", "statement": "is_subclass holds exactly for the class itself and the classes reachable through declared parents; the method resolution order starts with the class, enumerates exactly those classes breadth first, parents in declaration order; on diamonds a shared ancestor may be enumerated more than once.", "quantifier": "all class hierarchies (acyclic by construction)", "why_tests_cant": "All hierarchies.", "anchors": ["pybindgen/cppclass.py: CppClass.is_subclass, get_mro, get_all_parents"]}
{"id": "C27", "title": "A class is constructible only when no pure virtual method is left unimplemented", "statement": "A class is reported to have pure virtual methods iff some method declared pure virtual in it or an ancestor is not matched by a non-pure method with the same signature in a class that precedes it in the resolution order (provided the classes are complete before the first query); a public constructor of such a class is generated only through a helper class that implements the missing methods, and is refused otherwise.", "quantifier": "all hierarchies and method sets", "why_tests_cant": "All hierarchies and overriding patterns.", "anchors": ["pybindgen/cppclass.py: CppClass.get_have_pure_virtual_methods", "pybindgen/cppmethod.py: CppMethod.matches_signature"]}
{"id": "C28", "title": "Types registered in a module are visible by full name from the root module", "statement": "Registering a type makes its full name resolvable in its module and all enclosing modules, and its short name in its own module only; entries for other names are unaffected; creating the same C++ namespace twice gives the same sub-module.", "quantifier": "all module trees and registration histories", "why_tests_cant": "All trees and histories.", "anchors": ["pybindgen/module.py: ModuleBase.register_type, __getitem__, add_cpp_namespace, add_submodule"]}
{"id": "C29", "title": "Each wrapper is emitted into its own section and one-time definitions are emitted once", "statement": "In multi-section output each declared wrapper's code goes to the section it was declared in (or main), each section's header includes are emitted exactly once, every include is emitted once however often it is added, and a definition declared one-time by any module of the tree is emitted at most once in the whole output.", "quantifier": "all module trees, section assignments and histories of add_include / declare_one_time_definition", "why_tests_cant": "Depends on interleaved histories over the module tree.", "anchors": ["pybindgen/module.py: _MultiSectionSinkManager, ModuleBase.begin_section, end_section, add_include, declare_one_time_definition"]}
{"id": "C30", "title": "Integer arguments reach C++ with their exact value or are rejected", "statement": "For each of the 26 integer parameter and 11 integer return handlers, a Python integer in the handler's interval reaches C++ reduced to the C++ type and every other object is refused with OverflowError, ValueError or TypeError. The int, long, long long (and int16_t&) handlers accept exactly the values of their type; all handlers except int8_t&, int8_t* and the int8_t return pass every value of their type unchanged; every other handler also accepts some values outside its type, which silently wrap. From C++ to Python (results, override arguments, output parameters) every value is passed exactly. Several arguments are independent: parse errors come first, in order, then range errors. Output references of Python overrides are not supported by the generated code (the value is used as an address).", "quantifier": "all Python integers, all integer handlers, all registered type names, all lists of parameters, 32 and 64 bit platforms", "why_tests_cant": "The integers are infinite and errors are at boundaries.", "anchors": ["pybindgen/typehandlers/inttype.py: all handlers"]}
{"id": "C31", "title": "Declared C++ exceptions become the registered Python exceptions", "statement": "A wrapper declared with a throw list translates each C++ exception to the Python class of the first listed exception that matches its dynamic type, runs the cleanups, returns the error value and never lets a declared exception escape; undeclared exceptions propagate.", "quantifier": "all throw lists, all exceptions, all cleanup stacks", "why_tests_cant": "All exception hierarchies and list orders.", "anchors": ["pybindgen/function.py: Function.generate_call", "pybindgen/cppmethod.py: CppMethod.generate_call", "pybindgen/cppexception.py: CppException.write_convert_to_python"]}
{"id": "C32", "title": "Container conversion preserves contents and order", "statement": "Converting a Python list to a wrapped sequence container yields the elements in order, iterating a wrapped container yields every element once in container order and then StopIteration; conversion fails iff some element's conversion fails, with its error; a failed constructor leaves no allocated container.", "quantifier": "all lists and containers, all element conversion outcomes", "why_tests_cant": "All lengths and failure positions.", "anchors": ["pybindgen/container.py: Container._generate_container_constructor, _generate_iter_methods, IterNextWrapper"]}
{"id": "C33", "title": "Numeric operators use the first signature whose operands convert", "statement": "A wrapped numeric operator tries its registered signatures in order, returns the result for the first whose two operands convert, and otherwise returns NotImplemented with no error pending.", "quantifier": "all operator tables, all operand conversion outcomes", "why_tests_cant": "All table sizes and outcomes.", "anchors": ["pybindgen/cppclass.py: CppClass._generate_number_methods, add_binary_numeric_operator"]}
{"id": "C34", "title": "C++ calls to a virtual method reach the Python override, else the C++ implementation", "statement": "For an instance of a Python subclass, a virtual call runs the Python override if one exists, otherwise the parent C++ implementation (or the error return if pure virtual), and on every path the object pointer of the Python instance is restored to its value before the call.", "quantifier": "all proxies, all run-time outcomes", "why_tests_cant": "All paths through proxies over arbitrary handlers.", "anchors": ["pybindgen/cppmethod.py: CppVirtualMethodProxy.generate, generate_python_call"]}
{"id": "C35", "title": "Attribute setters assign exactly when the conversion succeeded", "statement": "The C function generated for assigning a wrapped attribute (or for converting a Python value to C++) returns exactly once with every reference it took released; the C++ attribute is assigned (the setter method is called) exactly on the paths on which the whole conversion succeeded and the success value is returned, and on every other path the error value is returned and the attribute is untouched.", "quantifier": "all attribute types (value handlers), all run-time outcomes", "why_tests_cant": "All handlers and all paths through the generated code.", "anchors": ["pybindgen/cppattribute.py: CppInstanceAttributeSetter.generate, CppStaticAttributeSetter.generate", "pybindgen/converter_functions.py: PythonToCConverter.generate"]}
{"id": "C36", "title": "What a class inherits from its parents", "statement": "A class has the memory policy of the first of its parents that has one, else its own; giving one twice is refused. Without its own type narrowing or subclassing setting it behaves as its first parent does; the function used to create instances, the narrowing root and the wrapper registry are those of the documented ancestor and the registry is shared exactly along first parents.", "quantifier": "all class hierarchies and declaration histories", "why_tests_cant": "All hierarchies, all orders of declarations.", "anchors": ["pybindgen/cppclass.py: CppClass.__init__ (681-740), get_instance_creation_function, get_type_narrowing_root, _get_wrapper_registry"]}
{"id": "C37", "title": "The method table of each module lists exactly its functions", "statement": "A successful generation writes one method table and one initialisation function per module of the tree; the table lists the declared names once each, in the order of first declaration, with a C function that is declared and defined, the right flags and docstring; a declared name is missing only if the error handler agreed to it; the initialisation function registers exactly the direct submodules; generating again raises TypeError and writes nothing.", "quantifier": "all declaration scripts, error handlers and outcomes of generation", "why_tests_cant": "All module trees and scripts.", "anchors": ["pybindgen/module.py: ModuleBase.do_generate, Module.generate", "pybindgen/overloading.py: OverloadedWrapper.get_py_method_def"]}
{"id": "C38", "title": "The names of functions in Python and in C", "statement": "A function without a custom name is known in Python by its C++ name (with template parameters mangled) transformed by the module's current transformation, by default stripping the module's name and an underscore; set_strip_prefix and the transformer affect later declarations of that module only; the C wrapper is named after the path of the module in the tree and the function.", "quantifier": "all declaration scripts", "why_tests_cant": "All scripts and module trees.", "anchors": ["pybindgen/module.py: ModuleBase._add_function_obj, set_strip_prefix, __init__, set_name", "pybindgen/function.py: Function.get_custom_name"]}
{"id": "C39", "title": "Comparisons use the C++ operator of the first class that answers", "statement": "Comparing two Python objects of wrapped classes with ==, !=, <, <=, > or >= gives the result of the C++ operator that was registered for the nearest class (in the operand's inheritance) having any comparison operator, when both operands are instances of that class; the reflected operand is asked next (first, if its class derives from the other's); if none answers, == and != compare identity and the others raise TypeError. Instances of classes with comparison operators are not hashable.", "quantifier": "all sets of registered operators, all inheritance lines, all operands and C++ operators", "why_tests_cant": "All operator tables and hierarchies, both operand orders.", "anchors": ["pybindgen/cppclass.py: CppClass._generate_tp_richcompare, add_binary_comparison_operator"]}
{"id": "C40", "title": "Sequence operations call the corresponding C++ method", "statement": "For a wrapped class with methods named __len__, __getitem__, __setitem__, __contains__, __add__, __mul__, __iadd__ or __imul__ (its own or inherited), len(x), x[i], x[i]=v, v in x, x+y, x*n, x+=y, x*=n and iteration over x call that method once with the given operands (negative indices counted from the end), the result or exception is that of the method (converted to a length, a status or a truth value where Python needs one; iteration ends at IndexError or StopIteration), and no reference is leaked.", "quantifier": "all classes, inheritance lines, methods, operands and states; iterations of every length", "why_tests_cant": "Every method behaviour and operand; indices over the whole integer range.", "anchors": ["pybindgen/pytypeobject.py: PySequenceMethods", "pybindgen/cppclass.py: CppClass._generate_sequence_methods, have_sequence_methods"]}
{"id": "C41", "title": "Arguments of the basic types arrive in C++ as the values given", "statement": "A call of a wrapped function whose parameters are of the basic types (integers, bool, double, float, char, C strings, std::string, PyObject*; by value, and by reference or pointer where supported; with or without default values) calls C++ exactly when every argument has a value of its parameter's type, and then with exactly those values, in order, the default values for arguments left out; otherwise C++ is not called, and the exception is the one for the first argument the parser refuses or, if there is none, ValueError for the first one out of range. Nothing undefined happens.", "quantifier": "all parameter lists, default values, arguments, platforms, floating point formats and C++ functions", "why_tests_cant": "All combinations of parameter types and argument values.", "anchors": ["pybindgen/typehandlers/booltype.py", "pybindgen/typehandlers/doubletype.py", "pybindgen/typehandlers/floattype.py", "pybindgen/typehandlers/stringtype.py", "pybindgen/typehandlers/pyobjecttype.py", "pybindgen/typehandlers/inttype.py", "pybindgen/typehandlers/base.py: ForwardWrapperBase.generate_body"]}
{"id": "C42", "title": "Results of the basic types reach Python as the values C++ returned", "statement": "The result of a call is the C++ return value followed by what C++ left in each output parameter, converted to the Python values they denote: None if there is none, the value if there is one, else a tuple in that order; UTF-8 text is decoded and what is not UTF-8 raises. A C++ function returning its argument returns to Python the text (of any characters), number, truth value or object it was called with.", "quantifier": "all parameter lists, return types, arguments and C++ functions; all strings", "why_tests_cant": "All strings and values.", "anchors": ["pybindgen/typehandlers/stringtype.py: StdStringReturn.convert_c_to_python, StdStringRefParam, CStringReturn", "pybindgen/typehandlers/base.py: BuildValueParameters"]}
{"id": "C43", "title": "Python references and strings handed to C++ are accounted for", "statement": "A call takes exactly one new reference for each PyObject* argument whose ownership goes to C++ and for a borrowed PyObject* returned, and creates exactly one std::string for each std::string* argument whose ownership goes to C++; a call refused by the argument parser takes no reference.", "quantifier": "all parameter lists, return types, arguments and C++ functions", "why_tests_cant": "All combinations of parameters and failures.", "anchors": ["pybindgen/typehandlers/pyobjecttype.py: PyObjectParam, PyObjectReturnValue", "pybindgen/typehandlers/stringtype.py: StdStringPtrParam"]}
{"id": "C44", "title": "Methods of a class and of its parents", "statement": "Every public method a class declares can be called on its instances under its name, overloads in declaration order; a class with several parents gets wrappers of its own for what it inherits from exactly one of the classes above it, except what it hides by a non-public declaration; nothing else is in its table and no name twice. What a class or one of its ancestors offers is found by Python, with single inheritance in the nearest class that offers it; with multiple inheritance the wrapper found belongs to a class at the same address in memory, as long as the name is declared by one class above only and not hidden.", "quantifier": "all declaration scripts, hierarchies and generation orders", "why_tests_cant": "All class hierarchies and method sets; the lookup order of Python is computed by a recursive merge.", "anchors": ["pybindgen/cppclass.py: CppClass._generate_methods, _generate_MI_parent_methods, _generate_type_structure", "pybindgen/overloading.py: OverloadedWrapper.generate"]}
{"id": "C45", "title": "Calls of virtual methods reach the right implementation in both languages", "statement": "For a wrapped class with single inheritance that allows subclassing, a call of a virtual method from C++ on an object made by a Python subclass runs the first Python override in the order of the Python type, or, if there is none, the implementation of the nearest C++ class; on any other object it runs what C++ itself would. A call from Python runs the first Python definition or else the implementation of the nearest C++ class. super() in an override of a method that the wrapped class itself implements runs that implementation and does not come back to the override; a protected virtual method can be called from Python subclasses (also by super() when it is only inherited) and is refused for other objects. (An override of a method that the wrapped class only inherits cannot reach it by super(): it recurses.)", "quantifier": "all scripts of class and method declarations, single inheritance lines, Python subclass chains, virtual methods and callers", "why_tests_cant": "which implementation runs depends on the declared hierarchy of arbitrary depth, on the helper classes made of it and on the Python classes; tests fix one hierarchy", "anchors": ["pybindgen/cppmethod.py: CppMethod.generate_call, CppVirtualMethodProxy, CppVirtualMethodParentCaller", "pybindgen/cppclass.py: CppHelperClass.add_virtual_method, CppHelperClass.generate, CppClass.generate_forward_declarations"]}
{"id": "C46", "title": "Objects managed by shared pointers live as long as something refers to them", "statement": "For a class whose memory policy is a shared pointer, whatever a program does with its instances - making them, passing them to C++ code that keeps them, getting them back, dropping references - never leads to undefined behaviour: an object exists exactly as long as a Python object refers to it or C++ code keeps a pointer to it, and is then deleted once. A C++ function receives exactly the pointer of the argument, an empty one for None where null_ok allows it, and is not called, without any effect, when an argument is not accepted. A returned object becomes a Python object that refers to it, an empty pointer becomes None, and every reference given to Python is counted. With a wrapper registry the same object is returned as the same Python object, as long as no Python object that refers to it goes away. (An instance constructed from Python is not registered, so returning it makes a second wrapper; calling __init__ again on a returned instance breaks the registry.)", "quantifier": "all histories of Python and C++ actions, arguments, C++ functions and addresses chosen by the allocator", "why_tests_cant": "reference counts go wrong only after particular interleavings of histories of unbounded length", "anchors": ["pybindgen/typehandlers/smart_ptr.py: BoostSharedPtr, StdSharedPtr, CppClassSharedPtrParameter, CppClassSharedPtrReturnValue", "pybindgen/cppclass.py: CppClass._generate_tp_dealloc, write_allocate_pystruct, common_shared_object_return", "pybindgen/wrapper_registry.py: StdMapWrapperRegistry"]}
{"id": "C47", "title": "Importing a generated module gives everything that was declared, and nothing else", "statement": "When every base, outer class and parent exception is declared in the same module as what refers to it, in an enclosing module (bases, parents and enumerations) or in a submodule declared earlier, and classes imported from elsewhere exist there, then code generation succeeds, importing the module succeeds, and afterwards: every class is a type with exactly the declared bases, every exception has its declared parent, and every function, class, container (with its iterator), exception, type alias, enumeration value and submodule is found under its declared Python name in the module or class where it was declared, with the value of the C++ constant it stands for; no module or class has any attribute that was not declared. The name of each type is the dotted path of its modules and outer classes. A class imported from a module that cannot be imported makes the import fail.", "quantifier": "every program of declarations of any length and depth of modules and nesting, every valuation of C++ constants, every set of modules available elsewhere", "why_tests_cant": "the initialisation order of an arbitrary tree of modules decides which types are ready when they are used as bases or dictionaries; tests fix a handful of trees", "anchors": ["pybindgen/module.py: ModuleBase.do_generate", "pybindgen/cppclass.py: CppClass.generate, CppClass._generate_import_from_module", "pybindgen/container.py: Container.generate", "pybindgen/cppexception.py: CppException.generate", "pybindgen/enum.py: Enum.generate", "pybindgen/cppclass_container.py"]}
{"id": "C48", "title": "Attributes read and write what they name", "statement": "Reading an attribute of a wrapped object gives the C++ member (or the result of the getter method or function) named by the declaration of the nearest class that offers the name, converted by the declared type; assigning converts the value (TypeError and no effect if it cannot be converted) and stores it through that same member, setter method or function; constant attributes cannot be assigned (AttributeError), and a constant attribute with a setter is refused at declaration. Static attributes behave so on the class and on classes that have it as first parent. Code for attributes with different names, each with its own ReturnValue, is always generated and compiles. Not so: with a ReturnValue shared by two attributes, for attributes of second parents, for deletion.", "quantifier": "all lists of attribute declarations over all class hierarchies (several parents included), all Python names, getters, setters, template parameters and conversions, all objects, values and C++ states", "why_tests_cant": "the C expression lives in a mutable ReturnValue that constructors and generation overwrite, so what a getter reads depends on every other declaration; lookup depends on the whole hierarchy", "anchors": ["pybindgen/cppattribute.py: CppInstanceAttributeGetter, CppInstanceAttributeSetter, CppStaticAttributeGetter, CppStaticAttributeSetter, PyMetaclass, PyGetSetDef.generate", "pybindgen/cppcustomattribute.py", "pybindgen/cppclass.py: CppClass.add_instance_attribute, add_custom_instance_attribute, add_static_attribute, generate"]}
{"id": "C49", "title": "Documentation strings arrive in Python", "statement": "The docstring given for a function, method, class or module, written with C escapes, is its __doc__, whatever characters the text has (a leading signature for inspect is taken off by Python, an empty text is None). Text without quotes, backslashes and newlines needs no escapes. Without a docstring a function with one wrapper is described by its call and the types of its parameters, and a class by the calls of its constructors, the longest first; overloads share the one docstring given, and different ones are an error. Generating again writes the same text.", "quantifier": "all texts, names, parameter lists, constructor lists and overload sets", "why_tests_cant": "the text passes through the C++ lexer (escapes, octal and hexadecimal sequences, adjacent literals, NUL) and Python's signature recognition; any character sequence may occur", "anchors": ["pybindgen/function.py: Function.get_py_method_def, generate_docstring", "pybindgen/cppmethod.py: CppMethod.get_py_method_def, generate_docstring, CppConstructor", "pybindgen/overloading.py: OverloadedWrapper.get_py_method_def", "pybindgen/cppclass.py: CppClass._generate_type_structure", "pybindgen/module.py: ModuleBase.do_generate"]}
{"id": "C50", "title": "Annotations in header files reach the declarations below them", "statement": "A declaration has exactly the annotations of the block of annotation comments directly above it, whatever was read before: every name, name=value and @parameter(...) item, where the upper line and then the later item counts; no declaration in a file makes reading fail. At the end every annotation comment of a file read that belongs to no declaration is reported, each once, and no other. Annotations of parameters and return values become the corresponding options (booleans in any case, directions, integers, default values; a C++ default comes first), each for its own parameter; names that are not known are reported and change nothing.", "quantifier": "all header files, histories of declarations, comments, blanks, names, values and parameter lists", "why_tests_cant": "the comments are found by backtracking regular expressions in arbitrary text and by walking up an arbitrary file; what is unused depends on every declaration read before", "anchors": ["pybindgen/castxmlparser.py: AnnotationsScanner.get_annotations, AnnotationsScanner.parse_boolean, AnnotationsScanner.warn_unused_annotations, GccXmlTypeRegistry.lookup_return, GccXmlTypeRegistry.lookup_parameter, ModuleParser._scan_namespace_functions"]}
{"id": "C51", "title": "Classes of header files are registered after what they depend on", "statement": "When the parser scans header files for types, every class it registers is registered in the scope it is declared in and with the bases it is declared with, after each of these bases and after the class around it, at most once, and never if it is ignored, anonymous or an instance over a private class; the scan always comes to an end; when it is not refused, every class is registered with each of its casting operators recorded or reported, or is left out for a definite (reported) reason; and when bases and conversion targets are declared beside the class, around it or in an earlier namespace and no class waits for more than nine levels of others, the scan is not refused, nothing is reported and every class and conversion is registered.", "quantifier": "every set of namespaces with any number of classes nested to any depth, any inheritance and conversion graph, any order of the names", "why_tests_cant": "the order is found by repeatedly postponing classes; it depends on the whole inheritance and conversion graph and on the order of the names, and a test fixes one graph", "anchors": ["pybindgen/castxmlparser.py:ModuleParser._scan_namespace_types"]}
{"id": "C52", "title": "What the members of a class in a header file become", "statement": "When the parser scans the members of a class, it declares for each member, in their order, exactly what the header says (name, types, const, static, virtual, pure, access, exceptions) if the member is neither annotated ignore nor a reference counting method, is of use from Python (accessible, or virtual) and has known types, and nothing otherwise; it adds an implicit default or copy constructor exactly when the compiler has one and none is declared or hidden; a pure virtual method is either declared as such or the class is marked as one that cannot be constructed; and of the calls written to the script those that succeed are exactly the ones made in memory.", "quantifier": "every class with any list of members, every set of known types, every acceptance of methods by the class", "why_tests_cant": "the result depends on combinations of access, virtuality, annotations and known types over the whole member list, seen twice by the parser; a test fixes one class", "anchors": ["pybindgen/castxmlparser.py:ModuleParser._scan_class_methods"]}
{"id": "C53", "title": "The script written while header files are scanned declares what the scan declares in memory", "statement": "When header files are scanned with a pygen sink (or with several sections), the script that is written, when its main is run, declares the same types, methods and functions as were declared in memory: every one in the module or class it was declared in, exactly as often; in the same order when there is one sink, and otherwise those of a section within begin_section and end_section of that section and the others outside. This needs that no two of the functions written in one file have the same name: for the namespaces a::b_c and a_b::c it does not hold.", "quantifier": "every tree of namespaces with any types, functions and classes, every list of sections and every classification of the definitions", "why_tests_cant": "the script is not run by the unit tests together with a scan, and it depends on the whole tree of namespaces: a test shows that one script works", "anchors": ["pybindgen/castxmlparser.py: ModuleParser.scan_types, scan_methods, scan_functions, _scan_namespace_types, _scan_namespace_functions, _get_pygen_sink_for_definition"]}
{"id": "C54", "title": "A declaration in the script has the arguments that it has in memory", "statement": "Every call of add_function, add_method, add_constructor, add_class and add_instance_attribute or add_static_attribute that is written to the script while header files are scanned is a Python expression that is read back as a call with the same name, return value, parameters and keyword arguments as the call made in memory, whatever characters are in names, types and default values; classes are written as look-ups in the root module.", "quantifier": "every name, type, default value and annotation value (any string of characters up to 255, any integer, boolean, None, lists and nested calls), every number of parameters and keyword arguments", "why_tests_cant": "the space of strings with quotes, backslashes and control characters is unbounded, and the unit tests compare neither the script nor what it declares", "anchors": ["pybindgen/castxmlparser.py: _pygen_kwargs, _pygen_args_kwargs, _pygen_retval, _pygen_param, ModuleParser._scan_class_methods, _scan_namespace_functions", "pybindgen/utils.py: param, retval, parse_param_spec, parse_retval_spec"]}
{"id": "C55", "title": "Free functions of a header become the functions, methods and constructors their annotations say", "statement": "Scanning header files skips functions whose names begin with two underscores and takes the others in the order of name and declaration (equal ones in the order of the header). A function with ignore is left out; one with as_method=m and of_class=C becomes a method m of C (its first pointer parameter keeps its owner unless annotated); one with is_constructor_of=C becomes a constructor of C whose result the caller owns; every other becomes a function with the threads, exceptions, deprecation, name and template parameters that its declaration and annotations give. Each is one call in the generated script, under its pygen_comment; the module in memory gets exactly those of the calls whose types are all known; annotations that mean nothing are warned about; the scan succeeds whenever every function has such a description, and the description is unique.", "quantifier": "every list of functions, names, demangled texts and annotations, and every registry of types, classes and exceptions", "why_tests_cant": "the interaction of order, annotations and demangled texts is unbounded; a test covers a few headers", "anchors": ["pybindgen/castxmlparser.py:ModuleParser._scan_namespace_functions", "pybindgen/castxmlparser.py:check_template", "pybindgen/castxmlparser.py:get_template_arg"]}
{"id": "C56", "title": "Operators in headers become operators of the class", "statement": "When a class is scanned, the free operators of the namespace and then the public member operators are looked at, in order. operator<< on std::ostream& and the class adds the output operator; == != < <= > >= on two values of the class add a comparison; + - * / on the class and another operand add a numeric operator with the result and left classes and the right type, += -= *= /= an in-place operator, unary - a negation, all these when the class converts to the first argument and the result and first argument are wrapped classes; anything else adds nothing. Each is written to the script; it is declared in memory too unless the right operand has an unknown type; complaints say what was missing. Only operators without arguments or wrong annotations make the scan fail.", "quantifier": "every list of free and member operators, every type registry and convertibility relation", "why_tests_cant": "the combinations of symbols, argument counts, visibility and unknown types are unbounded", "anchors": ["pybindgen/castxmlparser.py:ModuleParser._scan_class_operators"]}
{"id": "C57", "title": "Class annotations in headers become the keyword arguments of the class", "statement": "When a class of a header file is scanned, its annotations give keyword arguments of add_class, each by the first annotation about it: allow_subclassing, is_singleton and automatic_type_narrowing by the boolean with that name, memory_policy by incref_method (with decref_method and peekref_method), incref_function (with decref_function) or free_function, custom_name by custom_name or python_name, import_from_module by its text; a class that is defined, has virtual methods, no bases and no annotation allow_subclassing can be subclassed; a destructor that is not public sets destructor_visibility. A keyword argument that is given already is kept. exception makes the class an exception; python_name is complained about as old and every annotation that is not known as ignored, in order. It fails only for a boolean annotation that is not a boolean.", "quantifier": "every list of annotations with and without values, every set of keyword arguments given before, every class", "why_tests_cant": "the combinations and orders of annotations are unbounded; a test shows one of them", "anchors": ["pybindgen/castxmlparser.py: ModuleParser._apply_class_annotations, _get_destructor_visibility", "pybindgen/cppclass.py: ReferenceCountingMethodsPolicy, ReferenceCountingFunctionsPolicy, FreeFunctionPolicy"]}
{"id": "C58", "title": "Enumerations in headers are added to the module, in the script and in memory", "statement": "When header files are scanned, every enumeration that is not annotated with ignore and that, inside of a class, is public and has no name with two underscores first, is added with its name and its values, in order: one call of add_enum in memory, and in the part of the script that it belongs to a line that is read back as a call of module.add_enum with the same name and values, the enclosing class from the root module and the module of the annotation import_from_module, after a comment line when there is an annotation pygen_comment. It fails only for pygen_comment without a text.", "quantifier": "every list of enumerations with any names, values and annotations, inside of a class or of a namespace, with and without a script", "why_tests_cant": "names, values and annotations are unbounded, and the tests do not read the script back", "anchors": ["pybindgen/castxmlparser.py: ModuleParser._scan_namespace_types (scan enumerations)", "pybindgen/module.py: ModuleBase.add_enum"]}
