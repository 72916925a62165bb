# A formal model of pyaaf2 in Rocq (Coq 8.16.1)

`properties.jsonl` lists the properties, `MANIFEST.json` maps them to theorems,
`rocq/theories` holds the model, the proofs and the property files,
`seeded/LOG.jsonl` records how the theorems fared against wrong programs.

## Trusted base

* Coq 8.16.1's kernel, including `vm_compute`, which the kernel implements.
* No axioms. `Print Assumptions` stands under every theorem of the `Props*.v` files and says
  "Closed under the global context" for each of them; no axiom of the standard library is used
  by any claimed theorem, and the development declares none.
* The correspondence between the Gallina definitions and the Python text. Each definition
  cites the file and lines it models. Nothing is extracted from or run against /repo.

## Modelling conventions

* Python integers are `Z`. A byte string is a `list Z` whose elements satisfy `0 <= b < 256`.
* A raised exception is a value: `result A := Ok a | Err e`. State is passed explicitly. Where
  the code changes state before it raises and the difference can be seen, the model returns the
  changed state with the error (namespace, vectors, sets, directory entries).
* Loops are structural recursion, folds, or recursion on fuel. Where fuel is used a theorem
  shows that the fuel given by the model is always enough, or the statement excludes the
  out-of-fuel outcome.
* Python objects shared by reference (list nodes, directory entries, sector tables) are
  entries of explicit stores, so aliasing is modelled and not assumed away.
* A property that is false of the code is recorded as a theorem `..._refuted` with a concrete
  witness, next to the strongest true variant, whose name ends in `_partial`.
* `*Model.v` files contain only definitions; `*Facts.v`, `*Proofs.v`, `*Inv.v` contain lemmas;
  `*Spec.v` the specifications; `Props*.v` the final theorems, their `Print Assumptions` and
  examples that meet their hypotheses.

## Layers

* **Base, Codec, Text**: Python sequences, `struct`, UTF-16, string operations as used.
* **LRU**: `cache.py`, all nodes and both pointers.
* **Compound file core** (CfbModel and the invariants above it): sector tables, free lists, the
  DIFAT, the sector cache, chains, `Stream`. One record `cfb` holds tables, entries
  (`start`, `size` per directory id) and the file bytes. The simplification is `Overflow`: the
  model refuses to grow a table past 2^32-6 entries, which the code does not check.
* **Saving** (CfbSave, Session): header, tables, 128-byte directory slots, `close`, reopening.
  Directory entries other than `start` and `size` are opaque 116-byte strings in sessions; their fields are
  DirEntryModel's business.
* **Directory objects** (DirCache): weak table, table of modified entries, collection at any time.
* **Sibling trees** (RB): `insert`, `pop` and rotations on linked entries, with all colours.
* **Namespace** (Ns): paths and calls over the sibling trees, the cache of listings, and the free
  list of directory ids. Stream content is represented by the record of released chains.
* **Objects** (Obj, Vec, Set): byte formats of objects, strong reference vectors and sets with their
  weak caches, attach and detach.
* **Values** (Ids, Types): identifiers and typed values.
* **Editorial** (Timeline) and **media scanners** (Media).

The layers are proved separately. The namespace does not carry file bytes, the
stream layer names entries by id, and the object layer treats storages as named places. C25 joins
streams, tables, header and directory slots; the sibling links are part of the opaque 116 bytes there.

## Per property

| id | status | what is modelled | how it is proved | files | result, and what is missing |
|----|----|----|----|----|----|
| C01 | proved | `Stream` read/write/seek/truncate/allocate/open over FAT, mini FAT and file bytes | forward simulation to a family of byte arrays with one cursor each, induction over operation sequences | CfbModel, StreamSpec, StreamRun, PropsStream | Quantifies over all finite operation lists from a new file of either sector size (StreamRun.run over StreamInit.fresh) or any state satisfying R.  The run may stop with Overflow, which the model raises only where a table would pass 2^32-6 entries (grow_fat, grow_minifat); one handle per stream (two handles: C27). Growth by truncate leaves the new bytes unspecified here (C04). |
| C02 | proved | same state with many streams | frame part of the simulation: chains are pairwise disjoint, so an operation on one stream leaves the bytes of the others | same | Any operations on other streams, including create, remove and reset, leave the bytes of stream j unchanged. |
| C03 | proved | `allocate`/`truncate` migration branches | part of the simulation, stated separately on size class and chain length | same | Storage class is a function of the size, the chain has exactly ceil(size/sector) sectors, so nothing is leaked or lost on crossing; content and cursor by C01. |
| C04 | partial | `truncate` growing branch | length and prefix by the simulation; zero bytes refuted by witness | same | The property is false of the code: truncate to a larger size shows stale bytes of the last sector or of reused sectors (witness). Proved instead: requested length and old prefix. |
| C05 | proved | FAT/mini FAT tables, free lists, append/free of chains | inductive invariant: lists of chains and free lists partition the table entries | TableInv, CfbInv, PropsStream | Ownership is total: every table entry is in exactly one list or is a FAT/DIFAT/range-lock mark. |
| C06 | proved | `next_free_sect` with FAT/DIFAT growth and the range-lock sector | same invariant extended with the DIFAT | DifatInv, CfbInv, PropsStream |  |
| C07 | proved | `next_free_minifat_sect`, `mini_stream_grow` | invariant relating free-list order and container length | CfbInv, PropsStream | From a new file; reopened files through the invariant R (C25). |
| C08 | proved | `get_fat_chain` (two-pointer loop) over arbitrary tables | orbit of a function on a finite set; fuel bound | ChainSpec, ChainProofs, PropsChain | Two-pointer loop of get_fat_chain over arbitrary tables. |
| C09 | proved | `write_header`/`read_header` | codec round trip and exact refusals | CfbSave, SaveFacts, PropsSave | header codec of write_header/read_header (cfb.py 1240-1349) |
| C10 | proved | `write_fat`/`read_fat`, `write_difat`/`read_difat`, `write_minifat`/`read_minifat` | codec round trip over arbitrary tables; reachable states meet the hypotheses | CfbSave, SaveFacts, SaveInv, PropsSave, PropsSession | general over all tables that fit their sectors, incl. rows beyond the header; hypothesis shown to hold in every reachable state |
| C11 | proved | accessors of the 128-byte image of `DirEntry` | slice algebra; permutation of assignments | DirEntryModel, PropsDirEntry | From any 128-byte image with a name length of at most 64: every listed field reads back as set, the others keep their values, in any order of assignments, and the image alone decodes to the same fields. Outside the listed fields: modify_time has a setter that always raises; the zero AUID and sector number 0xFFFFFFFF are accepted but read back as None. |
| C12 | proved | `DirEntry.name` | slice algebra and UTF-16 codec | DirEntryModel, PropsDirEntry | Round trip for all names of at most 32 UTF-16 units without NUL over any previous image; longer names raise AssertionError. A name containing NUL (excluded by the property) is cut in the image. |
| C13 | proved | `read_sector_data`, cache invalidation on write | invariant: cache is a subset of the file | CfbModel, CfbInv, PropsStream | Directory flushes are covered in C14. |
| C14 | partial | `dir_cache` (weak), `modified`, `read_dir_entry`, flush, collection | refinement to a map from ids to 128-byte strings, with non-deterministic collection steps | DirCacheModel, DirCacheFacts, PropsDirCache | Proved for files open for writing: any interleaving of accesses, setters, creations, removals, dropped references, collections, flushes, directory growth and other sector traffic answers as a map from ids to 128-byte strings. In read-only mode the property is false: mark_modified returns early, so a set field is lost when the object is collected (C14_readonly_refuted). |
| C15 | proved | `LRUCacheDict` with its nodes and pointers | refinement to an association list in recency order; history characterisation | LRUModel, LRUSpec, LRUProofs, LRUHistory, PropsCache | Pointer-level model of LRUCacheDict; capacity is size+1 nodes as in the code. |
| C16 | proved | `next_free_dir_id`, `free_dir_entry` | invariant over histories | CfbStream, PropsStream |  |
| C17 | proved | `DirEntry.insert`, `add_child`, rotations on a store of linked entries | representation predicate and zipper invariant of the loop | RBModel, RBTree, RBOrder, RBInsert, RBSpec, RBLink, PropsRB | Proved for trees with black root and no red-red pair (in particular red-black trees). C17_after_removals_refuted: outside that, after removals, insertion can fail and lose the folder. |
| C18 | proved | `DirEntry.pop`, `remove_child` | representation predicate, any colouring | RBPop, PropsRB |  |
| C19 | partial | same | refuted by witness; search order and black root survive (C18) | PropsRB | The property is false of the code: removing an entry can leave unequal black counts (the wrong sibling is taken at line 912). That removal keeps search order and a black root is in C18. |
| C20 | partial | `find`, `exists`, `listdir`, `create_dir_entry`, `makedir(s)`, `touch`, `remove`, `move`, `rmtree` over the stores of C17/C18 | refinement to a map from paths to entries by induction over histories | NsModel, NsSpec, NsInv, NsFind, NsChange, NsSteps, NsTree, NsMove, NsRun, NsLegal, PropsNs | The property is false of the code: a doubled slash hides an existing entry from create, and after some removals a creation fails inside insert and the folder loses its children. Proved: every history of find, exists, listdir, create, makedirs, touch, remove, move and rmtree over clean paths and names that do not differ only by case refines the tree of names up to a failure inside the tree code, which needs an earlier removal or move. |
| C21 | partial | `move` | refinement; refutations for dst inside src, a name too long, a deep destination | NsMove, PropsNs | The property is false of the code for a destination inside the source, for a new name the format cannot hold, and for destinations deeper than the cache of listings. Proved for every other move, up to a failure inside the tree code, which is excluded for balanced folders and different parents. |
| C22 | partial | `walk`, `rmtree` | refinement with the list of released ids and chains; root refuted | NsTree, PropsNs | The property is false of the code for the root: everything is released, then the call fails and a stale listing stays. Proved for every other path. The release of a sector chain is recorded as a call of free_fat_chain; what that does is C10. |
| C23 | partial | sibling order and `create_dir_entry` | invariant; refuted for case variants | NsInv, PropsNs | The property is false of the code: case variants are accepted, and removing one can fail inside pop. Proved: strict order and removability for every stored tree, which every legal history (C20) gives. |
| C24 | partial | `path`, `find` | induction over the path; refuted below a storage called "Root Entry" | NsPath, NsRun, PropsNs | The property is false of the code below a storage called Root Entry. Proved for all other entries of every stored tree. The model gives an entry that is read again the same parent attribute. |
| C25 | proved | `close`, `__init__`, directory writing and reading | composition of C09-C12 with the stream simulation; sessions of any length | CfbSave, CloseFacts, Session*, PropsSession | any number of close/reopen sessions refine byte strings and entry fields |
| C26 | proved | end computations of `close` | exact scan of arbitrary tables; all chains of reachable states below the end | CfbSave, CloseFacts, PropsSession | scan and end of file for any tables; all chains kept in every reachable state |
| C27 | partial | two `Stream` handles on one entry | refuted by witness; one handle per stream is C02 | PropsStream | The property is false of the code: a second handle keeps the old sector list and overwrites another stream (witness). With one handle per stream C02 holds. |
| C28 | proved | `write_properties`/`read_properties` | codec round trip | ObjModel, PropsObj | Distinct property ids and known storage formats, which property_entries guarantees. |
| C29 | proved | same | exact characterisation of success | ObjModel, PropsObj | Exact: saving succeeds if and only if every field fits; otherwise the stream keeps its old bytes. |
| C30 | partial | `StrongRefVectorProperty` with its key lists, weak cache and attach/detach | refinement to a list by induction over histories | VecModel, VecFacts, PropsVec | The property is false of the code for indices before the first element (element 0 is used instead of IndexError) and, beyond the statement, for insert at negative or too large indices, into a property its owner does not have yet, or of an attached object. Every other history agrees with a list, including attaching and detaching the owner, weak cache entries disappearing, and refusals. |
| C31 | proved | storage names of vector elements | invariant: keys below the counter and distinct | VecModel, PropsVec | For all histories with any arguments, also when operations raise; names compared in upper case. |
| C32 | proved | index streams of vectors, sets, weak arrays; weak reference values | codec round trips | ObjModel, PropsObj | Keys have the size recorded in the index; C32_key_size_refuted shows what happens otherwise. |
| C33 | proved | `StrongRefSetProperty` | refinement to a map by induction over histories | SetModel, SetFacts, PropsSet | Objects put into the set have a unique key; SKey on a member of a set that is not part of the file and swaps onto a present key are C34. C33_nokey_extend records what an object without key does to extend. |
| C34 | partial | `swap_unique_key` and id assignment | refinement for fresh keys; refuted for keys in use | SetModel, PropsSet | The property is false of the code: changing an id to one already present drops the other object, and while the set is not part of the file the set keeps the old id. Proved for ids no other object of the set has. |
| C35 | proved | `weakref_index`, referenced-properties stream | append-only invariant and codec | ObjModel, PropsObj |  |
| C36 | partial | `squeeze_name`, `mangle_name`, callers | length bound, injectivity in the pid | ObjModel, Text, PropsObj | The property is false of the code for weak reference vectors added through add_typedef_weakref_vector_property (made for 32 characters instead of 22); proved for every other name, also under the case-insensitive comparison of the directory. Lengths are counted in characters, so names with characters outside the BMP are not covered. |
| C37 | proved | `AUID` | byte permutations and positional notation | IdsModel, IdsFacts, PropsIds | All forms of all 16-byte identifiers convert losslessly; C37_short_auid_refuted records that text with blanks is accepted and gives fewer than 16 bytes. |
| C38 | proved | `MobID` | byte permutations | IdsModel, IdsFacts, PropsIds | All 32-byte identifiers; C38_int_wraps/C38_int_refuted record that integers outside 256 bits are truncated instead of refused. Dictionaries with missing keys are not modelled. |
| C39 | partial | URN text of `MobID` | exact set of identifiers that round-trip | IdsModel, PropsIds | The property is false of the code: C39_urn_roundtrip_iff_partial gives exactly the identifiers for which it holds, C39_urn_refuted a counterexample. |
| C40 | proved | `TypeDefInt` | codec round trip, exact refusals | TypesModel, TypesFacts, PropsTypes | All four sizes, signed and unsigned; encode refuses exactly the values out of range, decode accepts exactly the buffers of the right size and inverts encode both ways. |
| C41 | partial | `TypeDefFixedArray`, `TypeDefVarArray`, `TypeDefSet` | induction over element types | same, TypesRound | The property is false of the code for fixed arrays: encode pads one element too many, so integer fixed arrays read back one element longer (C41_fixed_int_array_partial gives the exact result) and the built-in array of 16 byte identifiers is corrupted. Proved for variable arrays and sets of any element type, and for full fixed arrays of non-integer elements. |
| C42 | partial | `TypeDefString`, string arrays | UTF-16 codec, split at NUL | same | Strings proved, with the exact treatment of NULs and surrogates. The property is false of the code for string arrays of the built-in type: the encoder tests for the type name Character while the built-in type is named aafCharacter; proved for a type so named. |
| C43 | proved | `TypeDefEnum`, `TypeDefExtEnum` | table lemmas | same | Tables of any size with NUL-free names; distinct names (for extendible enumerations: distinct up to lower casing, for any lower). |
| C44 | partial | `TypeDefRecord` with the special records | mutual induction over types | same | Proved by induction over all types of any nesting, and instantiated at the built-in date, time, timestamp, rational, AUID and MobID records. The property is false of the code for times with a fraction of a second, which is dropped. |
| C45 | proved | `AAFRational` | arithmetic | same | Construction from integers and rationals and 32 bit storage, including the exact result for zero denominators; construction from floats, decimals and strings is not modelled. |
| C46 | partial | keyframe insertion, bisection and interpolation in exact arithmetic | binary search invariant | TimelineModel, TimelineFacts, PropsTimeline | The property is false of the code: a keyframe before the first one is always inserted second, and a time given as an exact rational whose double is larger is inserted beside the existing point. Proved: the lookup on increasing points, insertion at any time not before the first (and any history of such insertions), constant and linear evaluation in exact arithmetic. |
| C47 | partial | `Sequence.positions`, `index_at_time`, slot lengths | induction over the components | same | The property is false of the code at cuts (the component that ends there is returned) and for nested scopes (length 0). Proved: positions are running sums; the component found covers the time, with intervals open on the left, for all sequences whose transitions fit the component before them. |
| C48 | partial | `create_timeline_slot` | exact characterisation of the chosen id | same | The property is false of the code: the loop never stops at the first gap, so the id is always the slot count plus one and can collide. Proved: the exact id chosen, when it is unused, that automatic numbering alone never collides, and that given ids are refused exactly when in use. |
| C49 | partial | `dependant_mobs` | graph search invariant; accessibility equivalent to termination | same | The property is false of the code on cyclic reference graphs: the traversal never ends (C49_cycle_refuted, for every cycle). Proved: it ends exactly on graphs without an infinite chain from the mob, and then the report is complete, without repetition and in dependency order. |
| C50 | partial | `next_free_pid` | scan invariant | same | The property is false of the code after all 32768 ids are used: ids below 0x8000 are handed out. Proved for every history of at most 32767 registrations. |
| C51 | partial | `ClassDef.isinstance`, `unique_key_size` | induction over the hierarchy | same | The acceptance check is proved for all hierarchies. The related key size query is asked the wrong way round (32 for the ancestors of Mob, 16 for its subclasses): refuted, with the exact result proved. |
| C52 | proved | KLV/BER scanner | codec round trip, progress measure | MediaModel, MediaFacts, PropsMedia | Scan of encoded packets in every BER form, converse, and termination on every byte string. Files below 2^63 bytes (seek overflow is modelled). |
| C53 | partial | local tag parser, primer | same | same | The property is false of the code for items with an empty value, which are dropped, and for values that overrun the set. Exact for all other items; the parser always ends; the primer pack round trips. |
| C54 | partial | `round_to_kag`, partition layout | arithmetic, exact error | same | The property is false of the code: off-grid positions give pos + kag, which is not on the grid. The exact error is proved. |
| C55 | partial | `iter_dnx_stream` | progress measure, concatenation law | same | The property is false of the code for a last frame cut by the end of the stream, which is yielded short. Everything else is proved for all byte streams. |
| C56 | proved | WAVE and AIFF-C chunk scanners | progress measure, exact hit | same | Chunks padded to even length; both scans end on every byte string. |
| C57 | partial | first write to an empty stream, close, reopen | from the session refinement; refuted for the ENDOFCHAIN encoding | CfbSave, Session, PropsEmpty | The property is false of the code: decode_sid maps only 0xFFFFFFFF to None, so a stream whose empty chain is stored as ENDOFCHAIN never gets the sector of its first write recorded, and after close and reopen the data cannot be read (C57_endofchain_refuted). Proved for every state of a file this library wrote, where the empty chain is FREESECT. |
| C58 | proved | `TypeDefIndirect` | codec round trip over any type lookup | TypesModel, PropsTypes | Any type lookup, any type chosen or given, any value of that type. |
| C59 | partial | the tables under `src/aaf2/model` and their registration | evaluation in the kernel of a checker for every entry, with a proof that the checker implies the specification | MetaTables, MetaModel, PropsBuiltin, PropsPaths | Proved for the base model and the model with extensions: classes, chains, properties, types, weak-reference paths (each followed from the root to a set of the right class), enumerations, and the keys of all set types but one. The property is false of the code for the set of DescriptiveObjects, whose class has no unique key. Also shown: the key size of a class below Mob is computed as 16 though its key has 32 bytes, and aafPositionArray holds bytes. The tables are finite, so these are evaluated in the kernel for every entry. |
| C60 | partial | `register_classdef`, `register_propertydef`, `register_class_alias`, `register_typedef` | inductive invariant over sequences of registrations | MetaModel, MetaFacts, PropsMeta, PropsMetaMore | Proved for every sequence of registrations whose dynamic ids are left to the library. The property is false of the code in three places: renaming a known class raises KeyError, a new identifier under a known name silently returns the old class, and an explicit id of 0x8000 or above is not checked. |
| C62 | proved | `relatives`, `all_propertydefs`, `lookup_propertydef`, `get_propertydef_from_pid`, `AAFObject.get`, `validate` | chain of ancestors as a relation; lookups by exact characterisation | same, PropsBuiltin | For every dictionary built by registration and every class whose chain has distinct ids, names and identifiers, as C59_classes shows for the built-in model. Not modelled: the propertydef cache of a Property object. |
| C61 | partial | `register_external_classdef`, `register_external_typedef` and the `copy` methods of the types and classes | mutual induction over the two recursive functions; invariant of all states reached by registrations and copies; universal refutations | MetaModel, MetaCopyFacts, PropsMetaCopy, PropsMetaMore | The property is false of the code for names of copied types, records, set types, weak references with a path, and classes that refer to themselves. Proved for every pair of dictionaries reached by registrations and copies: lookups stay consistent, nothing is lost, classes and properties arrive with their attributes, and a copied type has the identifier and kind of the original. |
| C63 | proved | objects as trees and directories as trees: `attach`, `write_properties`, `read_properties`, `read_object` and the `attach`, `write_index`, `decode`, `read_index` methods of the property classes | round trip by induction over the tree with a frame argument for directory entries; injectivity of generated names; totality of writing | TreeModel, PropsTree, PropsTreeMore, PropsTreeCopy | Directories and objects are trees; names, data and index streams as in the code. Sizes must fit their fields (2^32 elements, 65536 properties). |
| C64 | partial | `AAFObject.copy` and the `copy` method of each property class, within a file and to another | induction over the tree; the copy is shown to be of the form the library builds, so C63 applies; refutations by evaluation | same | The property is false of the code in seven ways, each with a witness. Proved: copies within a file of objects whose vectors had nothing removed, and copies to another file of objects without empty sets and weak reference arrays and without empty vectors whose name differs there. Not modelled: copying into a given directory, and copying the target of a single weak reference. |
| C65 | partial | an open file: root storage, objects in memory, the modified objects; the setters and list methods of the property classes, `attach`, `detach`, `add_modified`, `write_objects` | invariant of all sessions: every object that is not marked is read from its storage as it is in memory; frame argument for the storages; refutations by evaluation | EditModel, EditFacts, PropsEdit, PropsEditMore | Proved for all sessions whose arguments fit and in which a stream is first opened on an object that is marked as modified; taking out what is there and saving never fail (C65_removes, C65_saves). The property is false of the code in general: StreamProperty.open does not mark the object as modified, so a stream property opened on a saved object is lost (C65_stream_refuted); insert into a vector without entry is lost (C65_insert_refuted); replacing an object that has a stream fails when it is not in memory or the reference was set to None before (C65_unloaded_refuted, C65_none_refuted). |
| C66 | partial | the object manager: `path_cache`, `lru_cache`, `modified`, `read_object`, `pop`, `write_objects`, the weak references of properties, garbage collection | refinement: invariant relating the caches to a specification without caches over all histories; refutations by evaluation | ManagerModel, PropsManager | Proved for all histories in which an object is attached only where no other object is attached. The property is false of the code in general: the setter of a reference detaches only the object its weak reference knows, so after value = None, or when the property was read again while the program kept the object, the old object stays attached to the same storage and its changes are saved instead of the new object (C66_none_refuted, C66_forgotten_refuted). What an object holds is one value; how objects hang together is C65. |
| C67 | partial | `MetaDictionary.read_properties` and opening: what the file defines replaces the built-in, the rest is added with ids that are free | invariant over both loops (ids distinct among the definitions already stored, the others above the counter or free); counting argument that ids never run out; refutations by evaluation | OpenMetaModel, OpenMetaFacts, PropsOpenMeta, PropsOpenRun, PropsOpenKept, PropsOpenReg, PropsOpenExt, PropsOpenCases | The property is false of the code in corner cases, each with a witness: other names of replaced classes are stale, extensions can displace a file's class or type or fail, stale entries of renumbered ids, files with the generic character class but without the built-in character type, explicit ids equal to kept ones. Proved for all sound files otherwise: the file's definitions are kept exactly, built-in ones up to dynamic ids that the file uses, lookups by other ids are right, ids are distinct also after registrations and the extensions, everything is stored, opening succeeds with up to 32000 dynamic ids. What the file stores is given as lists of definitions; reading the objects is C63. |
| C68 | partial | `WeakRefProperty`, `WeakRefArrayProperty` (setters, `extend`, reading), `resolve_weakref`, `weakref_prop`, `pid_path`, the constants that recognise definitions | inductive specification of paths in the object tree and in the class definitions; set-then-read laws for every later table and tree; composed with C63 and C35 for saving; the built-in types checked by evaluation; refutations general or by evaluation | WeakModel, PropsWeak | The property is false of the code in these cases, each with a theorem: an object that is in no set is accepted and reading the reference is then a KeyError; extend with an iterator adds nothing; sets take duplicates; references to property definitions never resolve; the constant for class definitions is the identifier of InterchangeObject. Proved otherwise for all trees, tables and types: set-then-read for single references, arrays and assignment, under any later table and tree and after saving and reading, the refusals, that nothing else is found, and that every built-in reference type meets the hypotheses. The saved case of arrays follows from C63 and C68_array and is not stated. |
| C69 | partial | `lookup_def`, `short_name`, `Dictionary.register_def`, `Dictionary.update`, the copies of weak references into another file | independent specification of lookups (first match) and of the merge (what was there, then what was missing, in order); invariant through the seven loops; success characterised by an equivalence; refutations by evaluation | DictModel, PropsDict | The property is false of the code in these cases, each with a theorem: the parameters of an operation that is in both dictionaries are not merged, the update raises; an empty array of parameters makes it raise if there is no set of parameter definitions; a definition hidden by an earlier one of the same short name is not found by its name; the empty name finds a definition without a name; plugin definitions cannot be registered; an object of another file is returned as found. Proved otherwise for all dictionaries: lookups, registration, the exact result and soundness of the merge, an equivalence for its success, and that a second merge changes nothing. |
| C70 | partial | `SourceClip.walk`, `SourceReference.mob`/`slot`, `component_at_time` | inductive specification of chains, stops and faults without the model's functions; equivalences between the outcome of the walk and the specification; an independent specification of the point of time for the refutations | WalkModel, PropsWalk | The property is false of the code in these cases, each with a theorem: cyclic references are followed for ever; how far into a clip the walk is gets lost, so it leaves the point of time; at a cut the clip that ends there is taken; within a transition it fails. Proved otherwise for all contents with sequences without transitions and negative lengths: what it yields is exactly the chain, it raises exactly where a clip cannot be followed, it stops if and only if the chain is finite, and it stays at the point of time if the clips start at their beginning. |
| C71 | partial | `TaggedValueHelper`, the Name and Value of `TaggedValue` | refinement to a map (last assignment of each name) by induction over all assignments, composed with C42, C45 and C58 for the encodings; refutations general or by evaluation | TagModel, PropsTag | The property is false of the code in these cases, each with a theorem: an assignment of a value that cannot be stored leaves a new name behind, without a value; None takes the value away but not the name; a name with NUL in it is cut and not found again; append takes a name that is there. Proved otherwise for all lists and all sequences of assignments of text without NUL, 32-bit integers and fractions: the map, the order of names, and that a failing assignment to a name that is there changes nothing. |
| C72 | partial | The decoders of `mxf.py` 40-142 for reference arrays, text, identifiers, indirect values, rationals, line maps, pixel layouts, times and UMIDs, reading from the bytes left. | Round trips against independent encoders (big endian numbers, UTF-16, the calendar as a relation, the UMID as a permutation of bytes), for all values and following bytes; four `_refuted` theorems. | MxfModel, PropsMxf | The property is false of the code in these cases, each with a witness: references that are missing at the end read as None instead of an error, negative numerators and denominators read as large numbers, a UMID with a half swapped material number and another one read as the same MobID, invalid times read as the present time and the fraction of a second is lost. Proved for all other inputs. The rational is the pair of numbers rather than the text made of them; decode_datadef's table is not modelled. |

## Findings

Faults of the code met while modelling. Those with a theorem name are proved of the model.

Compound file, allocation and saving:

* Growing a stream with `truncate` shows stale bytes (`C04_truncate_grow_zero_refuted`).
* A second handle on a stream keeps its own sector list; after the other shrinks the stream it
  overwrites other streams (`C27_two_handles_refuted`).
* `decode_sid` maps only 0xFFFFFFFF to None, so data written first to a stream whose empty chain is
  stored as ENDOFCHAIN is lost (`C57_endofchain_refuted`).
* `close` with an empty mini FAT and a start sector in the root entry uses an unbound variable.
  With a mini FAT of free entries only it keeps one mini sector. After `close` the object's
  `mini_stream_chain` is stale.
* New directory sectors are not cleared: unused slots keep stale bytes until close.
* `dir_freelist` is not rebuilt on reopen and is empty in `setup_empty`, so ids 1..3 (or 1..31) of
  the first sector are never used.
* A BytesIO is always opened as 'wb+' and loses its contents.

Directory entries:

* The `modify_time` setter always raises (`C11_modify_time_refuted`); a zero class id and the sector
  number 0xFFFFFFFF read back as None (`C11_zero_class_refuted`, `C11_sid_mark_refuted`); names with
  NUL are cut in the image (`C12_nul_refuted`).
* In read-only mode setters change entries without marking them (`C14_readonly_refuted`).

Sibling trees and namespace:

* `pop` line 912, `parent[1 - direction]`, takes the node itself as its sibling and unbalances trees
  (`C19_removal_unbalances_refuted`). Later insertions can then fail, and because `insert` sets
  `child_id = None` before its loop any exception there loses the folder
  (`C17_after_removals_refuted`, `C20_after_removals_refuted`).
* In `pop` `head.parent` is None, so siblings read again during a removal get no parent; later calls of
  `pop` or `path` on them fail or give a wrong path. The model gives an entry that is read
  again the same parent.
* Case variants of a name are accepted as siblings, and removing one can fail inside `pop`
  (`C23_case_variant_refuted`).
* "/a//b" creates a duplicate sibling (`C20_doubled_slash_refuted`); "/a/" creates an entry with an
  empty name.
* `create_dir_entry` with a name that is too long loses the popped directory id; `move` to such a name
  loses the entry (`C21_long_name_refuted`); `move` into the own subtree orphans it
  (`C21_into_itself_refuted`); `move` to a depth over 513 fails with KeyError after the move because the
  listing of the destination was evicted (`C21_depth_refuted`).
* `rmtree('/')` empties the file, then raises, and a stale listing still finds released ids
  (`C22_root_refuted`); `rmtree` on a missing path raises AttributeError; `find` and `exists` through
  a stream raise ValueError.
* `path()` stops at any storage called "Root Entry" (`C24_root_name_refuted`).

Identifiers and values:

* `AUID(bytes_le=...)` has no length check; `bytes_from_int` truncates (`C38_int_refuted`); text with
  blanks gives short identifiers (`C37_short_auid_refuted`); URN text loses information
  (`C39_urn_refuted`).
* Fixed arrays are padded one element too far (`C41_fixed_array_refuted`, `C41_uuid_array_refuted`);
  string arrays of the built-in type are not encoded (`C42_string_array_refuted`); fractions of a
  second are dropped (`C44_time_fraction_refuted`); `TypeDefRename` has no `byte_size`.

Objects:

* Vector indices and `insert` (six `C30_*_refuted` theorems); `insert` does not check the root.
* `add_typedef_weakref_vector_property` mangles to 32 characters (`C36_weak_vector_refuted`).
* Set keys: colliding ids and unattached sets (`C34_collision_refuted`, `C34_unattached_refuted`); a
  failing `extend` leaves earlier items in a set that is not registered (`C33_nokey_extend`).
* Replacing an uncached EssenceData with a stream raises "dest stream already exists";
  `StreamProperty.detach` fails for an unattached parent or a missing stream; `copy` line 435 goes through
  one indirection too many; detached objects stay in the storage; `WeakRefProperty.copy` sets
  `p.key_pid = self.pid`.

Dictionaries:

* `MetaDictionary.read_properties` (metadict.py 560-624) can raise KeyError when a pid is reassigned;
  `ClassDef.__eq__` returns None; `dictionary.py` line 281 appends to the wrong object.
* `register_classdef` line 415 looks an AUID up among names, so renaming a known class raises KeyError
  (`C60_new_name_refuted`); a new AUID under a known name silently returns the old class
  (`C60_same_name_refuted`); an explicit pid of 0x8000 or more is not checked (`C60_given_id_refuted`).
* Copying definitions between files (`metadict.py:440-509`): the copy of a type is named after its class,
  e.g. every copied integer type is "TypeDefinitionInteger" (`C61_type_name_refuted`), so the members of
  a copied record, which are looked up by name, can take another width (`C61_record_refuted`: three bytes
  become four); set types raise AttributeError (`C61_set_refuted`), weak references with a path raise
  ValueError (`C61_weak_refuted`), and a class with a new strong reference type to itself recurses until
  RecursionError (`C61_self_refuted`).
* The set of DescriptiveObjects has no unique key (`C59_keyless_refuted`); `isinstance` tests the wrong
  direction, so classes below Mob get a 16 byte key (`C59_subclass_key_refuted`); the key id given for
  Parameter, 0x1B01, is no property of that class; `aafPositionArray` holds UInt8
  (`C59_position_array_refuted`).

Copies of objects:

* `StrongRefVectorProperty.copy` names elements through `references[references[i]]`: after an element was
  removed a copy within the file raises IndexError (`C64_popped_refuted`). A vector stored under another
  name than the library's is copied so that the saved file cannot be read (`C64_foreign_refuted`).
* `WeakRefProperty.copy` sets `key_pid` to the property's own pid (`C64_weak_key_refuted`).
* To another file: an empty set or weak reference array gets no index name and saving raises TypeError
  (`C64_empty_set_refuted`, `C64_empty_weak_refuted`); an empty vector under a dynamic pid that differs there
  keeps the old name, and the saved file cannot be read (`C64_empty_vector_refuted`); targets of a weak
  reference array are not copied and an assertion fails (`C64_missing_target_refuted`).

Editing an open file:

* `StreamProperty.open` enters the property without marking its object as modified: on an object that is saved
  already the property is lost when the file is saved (`C65_stream_refuted`).
* `StrongRefVectorProperty.insert` does not enter a property that was not there (`C65_insert_refuted`).
* Setting a reference detaches the old object only if it happens to be in memory; otherwise, and after
  `value = None`, its streams stay and a new object with the same stream cannot be attached
  (`C65_unloaded_refuted`, `C65_none_refuted`).
* In the same two cases the old object stays attached to the storage of the new one; if the program changes the old
  object, it takes the new one's place in the list of modified objects and is saved instead of it
  (`C66_none_refuted`, `C66_forgotten_refuted`).

Opening a file:

* The other names of a built-in class the file defines (`ClassDef`, `Object`, `Edgecode`) lead to the replaced
  built-in class (`C67_alias_refuted`). A file that calls EdgeCode `Edgecode` loses its own definition when it is
  opened for writing with the extensions, and its ids with it (`C67_extensions_refuted`).
* A renumbered built-in property stays in `propertydef_by_pid` under its old id; if the file uses that id in an
  ancestor, lookups give the wrong property (`C67_by_id_refuted`).
* A file with the class of generic characters but without the built-in character type cannot be opened for
  writing, or gets its own class renumbered (`C67_opens_refuted`, `C67_file_refuted`).
* Opening with the extensions replaces types of the file that have the name of an extension type
  (`C67_types_refuted`) and fails if the file has an extension class under another name
  (`C67_renamed_refuted`).
* Ids that built-in definitions keep are not in `local_pids`, so an explicit id of a later registration is not
  checked against them (`C67_claim_refuted`).
* Weak references: an object that is in no set is accepted and cannot be read
  (`C68_unattached_refuted`); `extend` goes through its argument twice, so an iterator adds nothing and says nothing
  (`C68_iterator_refuted`); a set of references takes duplicates (`C68_duplicate_refuted`); the path of the built-in
  references to property definitions goes through a set and never resolves (`C68_property_refuted`);
  `CLASSDEF_AUID` (properties.py:49) is the identifier of InterchangeObject, so references to class definitions are not
  looked up in the meta dictionary and those to interchange objects are (`C68_classes_refuted`,
  `C68_interchange_refuted`).
* The dictionary: `update` calls `opdef.append`, which operations do not have, so a shared operation that lacks one of
  the other's parameters is an AttributeError half way through (`C69_operation_refuted`); an empty array of parameters
  is a KeyError if there is no set of parameter definitions (`C69_empty_refuted`); a definition need not be found by its
  own name (`C69_name_refuted`); the empty name and a bare prefix name a definition without a name
  (`C69_unnamed_refuted`); plugin definitions cannot be registered (`C69_plugin_refuted`) and are not merged; an object
  of another file is returned as found (`C69_foreign_refuted`).

Editorial and media:

* Keyframes before the first (`C46_add_before_first_refuted`), cuts (`C47_boundary_refuted`), nested scopes
  (`C47_nested_length_refuted`), slot ids (`C48_refuted`), cyclic mob references
  (`C49_cycle_refuted`), exhausted pids (`C50_exhausted_refuted`), key sizes (`C51_key_size_refuted`).
* Empty local tags dropped and values overrunning the set (`C53_empty_refuted`, `C53_overrun_refuted`); KAG
  rounding and the end of the header partition (`C54_round_refuted`, `C54_header_refuted`; KAG 0 divides by
  zero); a truncated last DNx frame is yielded short (`C55_truncated_refuted`).
* `SourceClip.walk` forgets how far into a clip it is (`C70_offset_refuted`), takes the clip that ends at a cut
  (`C70_cut_refuted`), fails within transitions (`C70_transition_refuted`) and never ends on cyclic references
  (`C70_cycle_refuted`).
* Tagged values: an assignment that fails leaves the new name behind without a value (`C71_half_refuted`); None takes
  the value away and not the name (`C71_none_refuted`); a name with NUL in it is cut, is not found again and every
  assignment adds another (`C71_nul_refuted`); `append` does not look at names (`C71_append_refuted`).
* MXF values: missing references read as None (`C72_refs_refuted`); negative rationals read as large ones
  (`C72_rational_refuted`); the fraction of a second is lost and an invalid time is the present (`C72_time_refuted`,
  `C72_time`); two UMIDs can give one MobID (`C72_mob_refuted`).

## Not modelled

* Python object identity beyond what is stored explicitly, `struct`/`array` internals, garbage
  collection except where a model has collection steps.
* Floats: interpolation and rationals built from floats.
* Operating-system I/O errors, concurrent access to the file.
* Descriptor attribute classes of `mxf.py` and `ama.py`, `ffmpeg` helpers, the XML and dump tools.
* The property attribute layer above vectors, sets and values (`value` of each property class),
  except where a property names it.
