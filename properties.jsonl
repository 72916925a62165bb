{"id": "C01", "title": "Streams behave as growable byte arrays", "statement": "Whatever sequence of seek, read, write, tell and shrinking truncate calls is made through an open stream of a compound file, every read returns exactly the bytes an ordinary in-memory byte array with a cursor would return: bytes previously written at those offsets, zero where a seek past the end created a gap, and nothing past the end.", "quantifier": "all sector sizes allowed by the format, all initial file states satisfying the allocation invariant, all finite sequences of stream operations with any arguments, streams of any length", "why_tests_cant": "The claim ranges over unbounded operation sequences, stream lengths and cursor positions, and over every arrangement of the underlying sectors.", "anchors": ["src/aaf2/cfb.py:Stream.read", "src/aaf2/cfb.py:Stream.write", "src/aaf2/cfb.py:Stream.seek", "src/aaf2/cfb.py:Stream.tell", "src/aaf2/cfb.py:Stream.truncate", "src/aaf2/cfb.py:Stream.allocate"]}
{"id": "C02", "title": "Streams are isolated from each other", "statement": "Growing, writing, shrinking or emptying one stream never changes the length or any byte of any other stream of the same compound file.", "quantifier": "all numbers of streams, all their sector layouts (regular and mini), all interleavings of operations on them", "why_tests_cant": "Aliasing appears only for particular allocation histories; no finite test set visits all of them.", "anchors": ["src/aaf2/cfb.py:Stream.write", "src/aaf2/cfb.py:Stream.allocate", "src/aaf2/cfb.py:Stream.truncate", "src/aaf2/cfb.py:CompoundFileBinary.fat_chain_append", "src/aaf2/cfb.py:CompoundFileBinary.free_fat_chain"]}
{"id": "C03", "title": "Crossing the mini-stream threshold keeps the content", "statement": "When a write makes a stream grow past the mini-stream cutoff, or a truncate shrinks it below the cutoff, the stream is moved between mini sectors and regular sectors; its retained content and the caller's cursor are unchanged by the move and the sectors it leaves are released.", "quantifier": "all contents, all old and new sizes on either side of the cutoff, all cursor positions", "why_tests_cant": "The migration depends on every combination of old size, new size, cursor and free-list state.", "anchors": ["src/aaf2/cfb.py:Stream.allocate", "src/aaf2/cfb.py:Stream.truncate", "src/aaf2/cfb.py:Stream.is_mini_stream"]}
{"id": "C04", "title": "Truncating a stream to a larger size exposes only zeros", "statement": "Stream.truncate(n) with n larger than the current length extends the stream with zero bytes.", "quantifier": "all streams, all n, all previous contents of the sectors that become part of the stream", "why_tests_cant": "Whether stale bytes become visible depends on the previous owner of the sectors.", "anchors": ["src/aaf2/cfb.py:Stream.truncate", "src/aaf2/cfb.py:Stream.allocate"]}
{"id": "C05", "title": "A sector is never owned by two chains", "statement": "After any history of allocating, extending, shortening and freeing chains, no sector number belongs to two live chains or to a live chain and the free list, and every free-list entry is marked free in the table.", "quantifier": "all tables satisfying the invariant, all finite sequences of chain operations, any number of chains", "why_tests_cant": "Double allocation needs a specific alloc/free history; histories are unbounded.", "anchors": ["src/aaf2/cfb.py:CompoundFileBinary.next_free_sect", "src/aaf2/cfb.py:CompoundFileBinary.fat_chain_append", "src/aaf2/cfb.py:CompoundFileBinary.free_fat_chain", "src/aaf2/cfb.py:CompoundFileBinary.next_free_minifat_sect"]}
{"id": "C06", "title": "Table growth never hands out reserved sectors", "statement": "When the sector table is full it grows by one table sector (and, when the directory of table sectors is full, by one more sector for that directory); the sectors holding the table, its directory and the range-lock sector are never handed out for stream data, each table sector is registered exactly once, and all previously allocated chains are unchanged.", "quantifier": "all table sizes, both sector sizes, all growth histories including those that cross the 109-entry header directory and the 2 GB range-lock position", "why_tests_cant": "Reaching the directory growth or the range lock needs hundreds of megabytes to gigabytes of data.", "anchors": ["src/aaf2/cfb.py:CompoundFileBinary.next_free_sect", "src/aaf2/cfb.py:CompoundFileBinary.iter_difat"]}
{"id": "C07", "title": "Every mini sector handed out lies inside the mini stream", "statement": "Whenever a mini sector is allocated, the container stream that backs mini sectors already covers the whole of that mini sector.", "quantifier": "all allocation and free histories of mini sectors, starting from a new file or a reopened file", "why_tests_cant": "The container grows by one sector at a time, so correctness depends on the order in which the free list yields sectors.", "anchors": ["src/aaf2/cfb.py:CompoundFileBinary.next_free_minifat_sect", "src/aaf2/cfb.py:CompoundFileBinary.mini_stream_grow", "src/aaf2/cfb.py:CompoundFileBinary.read_minifat", "src/aaf2/cfb.py:CompoundFileBinary.close"]}
{"id": "C08", "title": "Chain following always terminates and is exact", "statement": "Following a sector chain from any start in any table terminates; it returns the exact successor list if and only if that list reaches the end-of-chain mark, reports an error if the chain loops, and reports an error if it leaves the table.", "quantifier": "all tables (including corrupt and cyclic ones), all start sectors", "why_tests_cant": "Corrupt files are unbounded in variety; termination is a claim about all of them.", "anchors": ["src/aaf2/cfb.py:CompoundFileBinary.get_fat_chain"]}
{"id": "C09", "title": "Header encode and decode are inverse", "statement": "The file header written at close is decoded on reopen to the same version, sector sizes, counts, start sectors and first 109 table-sector numbers.", "quantifier": "all header field values in range", "why_tests_cant": "The field domain is far too large to enumerate, and an offset error may be masked by equal field values.", "anchors": ["src/aaf2/cfb.py:CompoundFileBinary.write_header", "src/aaf2/cfb.py:CompoundFileBinary.read_header"]}
{"id": "C10", "title": "Allocation tables survive save and reload", "statement": "Writing the sector table, the directory of table sectors and the mini-sector table and reading them back yields the same tables, the same list of table sectors and a free list with exactly the free entries.", "quantifier": "all table contents and sizes, including those needing directory sectors beyond the header", "why_tests_cant": "Needs tables larger than any test file and arbitrary contents.", "anchors": ["src/aaf2/cfb.py:CompoundFileBinary.write_fat", "src/aaf2/cfb.py:CompoundFileBinary.read_fat", "src/aaf2/cfb.py:CompoundFileBinary.write_difat", "src/aaf2/cfb.py:CompoundFileBinary.read_header", "src/aaf2/cfb.py:CompoundFileBinary.write_minifat", "src/aaf2/cfb.py:CompoundFileBinary.read_minifat"]}
{"id": "C11", "title": "Directory entry fields are independent and round-trip", "statement": "Setting any field of a directory entry (name, type, colour, links, class id, flags, start sector, size) makes it read back as set, leaves every other field unchanged, and the 128-byte image decodes to the same fields.", "quantifier": "all field values in range, all orders of assignment, all previous images", "why_tests_cant": "Overlap errors only show for particular value combinations.", "anchors": ["src/aaf2/cfb.py:DirEntry.name", "src/aaf2/cfb.py:DirEntry.type", "src/aaf2/cfb.py:DirEntry.left_id", "src/aaf2/cfb.py:DirEntry.right_id", "src/aaf2/cfb.py:DirEntry.child_id", "src/aaf2/cfb.py:DirEntry.class_id", "src/aaf2/cfb.py:DirEntry.flags", "src/aaf2/cfb.py:DirEntry.sector_id", "src/aaf2/cfb.py:DirEntry.byte_size", "src/aaf2/cfb.py:DirEntry.color"]}
{"id": "C12", "title": "Directory entry names round-trip up to the format limit", "statement": "A name whose UTF-16 form is at most 64 bytes and has no NUL is stored and read back exactly, overwriting any previous name; a longer name is refused.", "quantifier": "all names over all characters, all previous names", "why_tests_cant": "All strings are quantified over, including maximal-length ones that leave no room for a terminator.", "anchors": ["src/aaf2/cfb.py:DirEntry.name"]}
{"id": "C13", "title": "Sector reads through the cache are never stale", "statement": "However stream writes, table growth, directory flushes and cached sector reads are interleaved, a cached sector read returns the bytes the underlying file currently holds for that sector.", "quantifier": "all interleavings of cached reads and writes, all cache capacities and eviction orders", "why_tests_cant": "Staleness requires a particular interleaving of reads, writes and evictions.", "anchors": ["src/aaf2/cfb.py:CompoundFileBinary.read_sector_data", "src/aaf2/cfb.py:Stream.write", "src/aaf2/cfb.py:CompoundFileBinary.write_modified_dir_entries"]}
{"id": "C14", "title": "Directory entry updates are never lost by cache eviction", "statement": "A field set on a directory entry is seen by every later access to that entry, whether the in-memory entry is still alive, was flushed because too many entries were modified, or was dropped and re-read from the file.", "quantifier": "all interleavings of updates, flushes, garbage collections and re-reads over any number of entries", "why_tests_cant": "Depends on the garbage-collection schedule.", "anchors": ["src/aaf2/cfb.py:CompoundFileBinary.read_dir_entry", "src/aaf2/cfb.py:DirEntry.mark_modified", "src/aaf2/cfb.py:CompoundFileBinary.write_modified_dir_entries"]}
{"id": "C15", "title": "The LRU cache is a bounded map that evicts the least recently used key", "statement": "After any sequence of set, get, delete and membership operations the cache agrees with a plain map restricted to its most recently used keys: a lookup returns the last value set for that key or reports a miss, the number of entries never exceeds the capacity, and only the least recently used key is evicted.", "quantifier": "all capacities, all key and value types, all finite operation sequences", "why_tests_cant": "Pointer surgery on the circular list must be right for every reachable list shape.", "anchors": ["src/aaf2/cache.py:LRUCacheDict"]}
{"id": "C16", "title": "Directory ids are never shared by two live entries", "statement": "A directory id given to a new entry is not the id of any other live entry, whatever mix of creations and removals came before.", "quantifier": "all histories of entry creation and removal, any number of entries", "why_tests_cant": "Requires reasoning about all free-list histories.", "anchors": ["src/aaf2/cfb.py:CompoundFileBinary.next_free_dir_id", "src/aaf2/cfb.py:CompoundFileBinary.free_dir_entry", "src/aaf2/cfb.py:CompoundFileBinary.create_dir_entry"]}
{"id": "C17", "title": "Inserting a child keeps the directory tree a valid search tree with all old entries", "statement": "Adding an entry to a storage leaves every previous child reachable, adds the new one exactly once, keeps the sibling order required by the format, and keeps the tree a red-black tree if it was one.", "quantifier": "all red-black sibling trees of any size, all new names", "why_tests_cant": "Rotation cases depend on shape and colours of arbitrarily large trees.", "anchors": ["src/aaf2/cfb.py:DirEntry.insert", "src/aaf2/cfb.py:DirEntry.add_child", "src/aaf2/cfb.py:jsw_single", "src/aaf2/cfb.py:jsw_double"]}
{"id": "C18", "title": "Removing a child removes exactly that entry", "statement": "Removing an entry from a storage succeeds and leaves exactly the other children reachable, in search order, whatever the shape and colouring of the tree (also for files written by other software).", "quantifier": "all sibling search trees with any colouring, any entry in them", "why_tests_cant": "The removal loop restructures the tree on the way down; all shapes and colourings are quantified over.", "anchors": ["src/aaf2/cfb.py:DirEntry.pop", "src/aaf2/cfb.py:find_entry_parent", "src/aaf2/cfb.py:jsw_single", "src/aaf2/cfb.py:jsw_double"]}
{"id": "C19", "title": "Removal keeps the sibling tree balanced (red-black)", "statement": "After removing an entry the sibling tree is still a red-black tree: root black, no red node with a red child, equal black counts on all paths.", "quantifier": "all red-black trees, all entries removed", "why_tests_cant": "Colour invariants fail only on particular shapes.", "anchors": ["src/aaf2/cfb.py:DirEntry.pop"]}
{"id": "C20", "title": "The namespace behaves as a tree of names", "statement": "create, makedir, makedirs, touch, remove, find, exists and listdir on a compound file behave as the corresponding operations on an abstract tree whose storages map names to children: find returns exactly what was created and not since removed or moved, listdir returns exactly the children, creating an existing path and removing a missing path or a non-empty storage are refused.", "quantifier": "all histories of namespace operations, all names valid in the format, any depth and width", "why_tests_cant": "Unbounded operation histories over unbounded trees.", "anchors": ["src/aaf2/cfb.py:CompoundFileBinary.create_dir_entry", "src/aaf2/cfb.py:CompoundFileBinary.remove", "src/aaf2/cfb.py:CompoundFileBinary.find", "src/aaf2/cfb.py:CompoundFileBinary.listdir_dict", "src/aaf2/cfb.py:CompoundFileBinary.makedirs", "src/aaf2/cfb.py:CompoundFileBinary.makedir", "src/aaf2/cfb.py:CompoundFileBinary.touch"]}
{"id": "C21", "title": "Moving an entry relocates exactly its subtree", "statement": "move(src, dst) makes the subtree of src available at dst with its content, makes src absent and leaves every other path unchanged; if it is refused nothing changes.", "quantifier": "all trees, all src and dst paths including dst inside src", "why_tests_cant": "Quantifies over all trees and path pairs.", "anchors": ["src/aaf2/cfb.py:CompoundFileBinary.move"]}
{"id": "C22", "title": "rmtree removes exactly the subtree and releases its ids and sectors", "statement": "rmtree(path) removes the entry and everything below it, nothing else, and every directory id and sector chain of the removed entries is released exactly once.", "quantifier": "all trees, all paths", "why_tests_cant": "Unbounded trees.", "anchors": ["src/aaf2/cfb.py:CompoundFileBinary.rmtree", "src/aaf2/cfb.py:CompoundFileBinary.walk", "src/aaf2/cfb.py:CompoundFileBinary.free_dir_entry"]}
{"id": "C23", "title": "Sibling names are unique up to case as the format requires", "statement": "The compound-file format compares sibling names without case; creating an entry whose name differs from an existing sibling only by case is refused, so every sibling set stays strictly ordered and every entry stays removable.", "quantifier": "all sibling sets and new names", "why_tests_cant": "Any pair of names may collide.", "anchors": ["src/aaf2/cfb.py:CompoundFileBinary.create_dir_entry", "src/aaf2/cfb.py:DirEntry.__lt__", "src/aaf2/cfb.py:DirEntry.__eq__"]}
{"id": "C24", "title": "path() and find() are inverse", "statement": "For every entry reachable from the root, find(entry.path()) is that entry.", "quantifier": "all trees, all entries, all entry names", "why_tests_cant": "Names may coincide with names special to the implementation.", "anchors": ["src/aaf2/cfb.py:DirEntry.path", "src/aaf2/cfb.py:CompoundFileBinary.find"]}
{"id": "C25", "title": "What is closed is what is reopened", "statement": "After close, opening the same bytes gives the same allocation tables, the same directory entries and therefore the same content for every stream.", "quantifier": "all reachable states of a writable compound file", "why_tests_cant": "Ranges over all file states.", "anchors": ["src/aaf2/cfb.py:CompoundFileBinary.close", "src/aaf2/cfb.py:CompoundFileBinary.__init__", "src/aaf2/cfb.py:CompoundFileBinary.write_dir_entries", "src/aaf2/cfb.py:CompoundFileBinary.read_dir_entry"]}
{"id": "C26", "title": "Closing never cuts off sectors in use", "statement": "close releases unused trailing mini sectors and cuts the file after the last used sector; no sector or mini sector belonging to a live chain is lost.", "quantifier": "all allocation table contents", "why_tests_cant": "The end computation depends on the position of the last used entry in arbitrary tables.", "anchors": ["src/aaf2/cfb.py:CompoundFileBinary.close"]}
{"id": "C27", "title": "Two handles on one stream see one stream", "statement": "If the same stream is open twice, growing or shrinking it through one handle and continuing through the other never corrupts another stream.", "quantifier": "all interleavings of operations through two handles and on other streams", "why_tests_cant": "Interleavings.", "anchors": ["src/aaf2/cfb.py:Stream.__init__", "src/aaf2/cfb.py:Stream.allocate"]}
{"id": "C28", "title": "Object property lists round-trip through the properties stream", "statement": "The property list of an object, written and read back, has the same property ids, formats and values in the same order.", "quantifier": "all property lists with any number of entries (up to the format limit) and any value bytes", "why_tests_cant": "All lists and all value lengths, including empty and maximal ones.", "anchors": ["src/aaf2/core.py:AAFObject.write_properties", "src/aaf2/core.py:AAFObject.read_properties"]}
{"id": "C29", "title": "Oversized property values are refused, never truncated", "statement": "If a property value, or the number of properties, does not fit the 16-bit size fields, saving raises an error instead of writing a stream that decodes to something else.", "quantifier": "all property lists with any sizes", "why_tests_cant": "Boundary behaviour for arbitrary sizes.", "anchors": ["src/aaf2/core.py:AAFObject.write_properties"]}
{"id": "C30", "title": "A strong-reference vector is a list", "statement": "append, extend, pop, index lookup, item assignment, clear and iteration on a strong-reference vector behave as on a Python list: order, length and identity of elements agree after any history; insert does so for in-range indices.", "quantifier": "all histories of list operations, all indices", "why_tests_cant": "Index-keyed caches are renumbered on every change; all histories are needed.", "anchors": ["src/aaf2/properties.py:StrongRefVectorProperty"]}
{"id": "C31", "title": "Elements of a strong-reference vector never share a storage", "statement": "Two different elements of a strong-reference vector are never stored under the same storage name, whatever insertions and removals came before.", "quantifier": "all histories", "why_tests_cant": "Key reuse needs a particular history.", "anchors": ["src/aaf2/properties.py:StrongRefVectorProperty.extend", "src/aaf2/properties.py:StrongRefVectorProperty.insert", "src/aaf2/properties.py:StrongRefVectorProperty.pop", "src/aaf2/properties.py:StrongRefVectorProperty.clear"]}
{"id": "C32", "title": "Vector, set and weak-reference indexes round-trip", "statement": "The index streams of strong-reference vectors, strong-reference sets and weak-reference vectors/sets, and the weak-reference value, decode to exactly what was encoded.", "quantifier": "all element counts and all key values", "why_tests_cant": "All lengths and keys.", "anchors": ["src/aaf2/properties.py:StrongRefVectorProperty.read_index", "src/aaf2/properties.py:StrongRefVectorProperty.write_index", "src/aaf2/properties.py:StrongRefSetProperty.read_index", "src/aaf2/properties.py:StrongRefSetProperty.write_index", "src/aaf2/properties.py:WeakRefArrayProperty.read_index", "src/aaf2/properties.py:WeakRefArrayProperty.write_index", "src/aaf2/properties.py:WeakRefProperty.encode", "src/aaf2/properties.py:WeakRefProperty.decode"]}
{"id": "C33", "title": "A strong-reference set is a map from unique key to object", "statement": "append, extend, pop, lookup, membership, iteration and clear on a strong-reference set agree with a map keyed by each object's unique key; local keys of different objects differ.", "quantifier": "all histories of set operations", "why_tests_cant": "Unbounded histories.", "anchors": ["src/aaf2/properties.py:StrongRefSetProperty"]}
{"id": "C34", "title": "Changing a unique key never loses an object", "statement": "Changing the unique id of an object held in a set makes it available under the new id and absent under the old one, and every other object of the set remains available.", "quantifier": "all set contents, all old and new ids including ids already present", "why_tests_cant": "The colliding case must be quantified over.", "anchors": ["src/aaf2/properties.py:StrongRefSetProperty.swap_unique_key", "src/aaf2/properties.py:Property.value"]}
{"id": "C35", "title": "Weak-reference table indices are stable and survive save and reload", "statement": "The index assigned to a property path never changes or gets reused for another path, equal paths share an index, and the table written on save is read back identically.", "quantifier": "all sequences of registrations, all paths of non-zero property ids", "why_tests_cant": "All tables and sequences.", "anchors": ["src/aaf2/file.py:AAFFile.weakref_index", "src/aaf2/file.py:AAFFile.write_reference_properties", "src/aaf2/file.py:AAFFile.read_reference_properties"]}
{"id": "C36", "title": "Generated storage and stream names fit the format and are distinct per property", "statement": "The name generated for a property's storage or stream fits in the limit it was made for, so that it, its ' index' stream and its '{key}' storages are valid entry names, and two properties of one object with different ids never get the same name.", "quantifier": "all property names, all 16-bit property ids, all sizes used by the library", "why_tests_cant": "All names of all lengths and all pid pairs.", "anchors": ["src/aaf2/utils.py:squeeze_name", "src/aaf2/utils.py:mangle_name"]}
{"id": "C37", "title": "AUID representations convert losslessly", "statement": "Hex string, big-endian bytes, little-endian bytes and integer forms of an AUID convert into each other without loss; equality agrees in all of them and < is the order of the integers.", "quantifier": "all 2^128 identifiers", "why_tests_cant": "2^128 values.", "anchors": ["src/aaf2/auid.py:AUID"]}
{"id": "C38", "title": "MobID representations convert losslessly", "statement": "The 32-byte form, the integer form and the dictionary form of a MobID convert into each other without loss; field setters write exactly their field.", "quantifier": "all 2^256 identifiers and all field values", "why_tests_cant": "2^256 values.", "anchors": ["src/aaf2/mobid.py:MobID"]}
{"id": "C39", "title": "MobID URN text parses back to the same MobID", "statement": "Formatting a MobID as a URN and parsing it again gives the same MobID.", "quantifier": "all 2^256 identifiers", "why_tests_cant": "A branch taken on particular bytes differs between printing and parsing.", "anchors": ["src/aaf2/mobid.py:MobID.urn"]}
{"id": "C40", "title": "Integer property values round-trip and out-of-range values are refused", "statement": "An integer type of size 1, 2, 4 or 8 bytes, signed or not, decodes every encodable value to itself and refuses exactly the values outside its range.", "quantifier": "all integers, all sizes and signs", "why_tests_cant": "All integers.", "anchors": ["src/aaf2/types.py:TypeDefInt.encode", "src/aaf2/types.py:TypeDefInt.decode"]}
{"id": "C41", "title": "Array property values round-trip", "statement": "Fixed-size, variable-size and set-of values of any element type decode to the sequence that was encoded.", "quantifier": "all lengths, all element values", "why_tests_cant": "All lengths.", "anchors": ["src/aaf2/types.py:TypeDefFixedArray.encode", "src/aaf2/types.py:TypeDefFixedArray.decode", "src/aaf2/types.py:TypeDefVarArray.encode", "src/aaf2/types.py:TypeDefVarArray.decode", "src/aaf2/types.py:TypeDefSet.encode", "src/aaf2/types.py:TypeDefSet.decode"]}
{"id": "C42", "title": "String and string-array property values round-trip", "statement": "Strings without NUL characters, and arrays of them, decode to what was encoded.", "quantifier": "all strings and string lists without NUL", "why_tests_cant": "All strings.", "anchors": ["src/aaf2/utils.py:encode_utf16le", "src/aaf2/utils.py:decode_utf16le", "src/aaf2/utils.py:encode_utf16_array", "src/aaf2/types.py:iter_utf16_array", "src/aaf2/types.py:TypeDefString.encode", "src/aaf2/types.py:TypeDefString.decode"]}
{"id": "C43", "title": "Enumerations encode and decode names consistently", "statement": "An enumeration built from distinct names and values maps each name to its value and back; registering a new element keeps all previous ones; unknown names and values are refused.", "quantifier": "all element tables, all names and values", "why_tests_cant": "All tables.", "anchors": ["src/aaf2/types.py:TypeDefEnum.encode", "src/aaf2/types.py:TypeDefEnum.decode", "src/aaf2/types.py:TypeDefEnum.register_element", "src/aaf2/types.py:TypeDefExtEnum.encode", "src/aaf2/types.py:TypeDefExtEnum.decode"]}
{"id": "C44", "title": "Record values round-trip", "statement": "A record value decodes to the field values that were encoded, for records of integers and the special records (date, time, timestamp, rational, AUID, mob id).", "quantifier": "all record types and all field values in range", "why_tests_cant": "All field values.", "anchors": ["src/aaf2/types.py:TypeDefRecord.encode", "src/aaf2/types.py:TypeDefRecord.decode"]}
{"id": "C45", "title": "Rationals keep numerator and denominator", "statement": "A rational built from a numerator and a non-zero denominator keeps both unreduced through storage, is numerically equal to their quotient, 0/0 reads as zero and n/0 is refused.", "quantifier": "all numerators and denominators", "why_tests_cant": "All pairs.", "anchors": ["src/aaf2/rational.py:AAFRational.__new__"]}
{"id": "C46", "title": "Keyframes stay sorted and lookup finds the interval", "statement": "However keyframes are added to a varying value, they remain sorted by time, and the lookup used for evaluation returns the last keyframe at or before the requested time.", "quantifier": "all insertion orders and times, all lookups", "why_tests_cant": "All orders.", "anchors": ["src/aaf2/misc.py:VaryingValue.add_keyframe", "src/aaf2/misc.py:VaryingValue.nearest_index"]}
{"id": "C47", "title": "Sequence positions partition time", "statement": "The positions reported for the components of a sequence are the running sums of their lengths (transitions overlapping), and the component found for a time is the one whose interval contains it.", "quantifier": "all sequences of components, all times", "why_tests_cant": "All sequences and boundaries.", "anchors": ["src/aaf2/components.py:Sequence.positions", "src/aaf2/components.py:Sequence.index_at_time"]}
{"id": "C48", "title": "Automatically chosen slot ids are unused", "statement": "Creating a timeline slot without giving an id gives it an id no other slot of the mob has.", "quantifier": "all sets of existing slot ids", "why_tests_cant": "All id sets.", "anchors": ["src/aaf2/mobs.py:Mob.create_timeline_slot", "src/aaf2/mobs.py:Mob.slot_at"]}
{"id": "C49", "title": "The dependency closure of a mob is complete", "statement": "The mobs reported as dependencies of a mob are exactly those reachable through source references, each reported once and after the mobs it depends on; the traversal terminates.", "quantifier": "all reference graphs", "why_tests_cant": "All graphs, including cyclic ones.", "anchors": ["src/aaf2/mobs.py:Mob.dependant_mobs"]}
{"id": "C50", "title": "Dynamic property ids are unique", "statement": "A property id allocated for an extension property is in the dynamic range and not used by any other property definition.", "quantifier": "all sets of already used ids", "why_tests_cant": "The whole 15-bit space must be considered, including exhaustion.", "anchors": ["src/aaf2/metadict.py:MetaDictionary.next_free_pid"]}
{"id": "C51", "title": "Class compatibility checks follow the class hierarchy", "statement": "An object is accepted where a class is required exactly when the required class is the object's class or one of its ancestors.", "quantifier": "all class hierarchies, all pairs of classes", "why_tests_cant": "All hierarchies.", "anchors": ["src/aaf2/metadict.py:ClassDef.isinstance", "src/aaf2/metadict.py:ClassDef.relatives"]}
{"id": "C52", "title": "KLV scanning of MXF data consumes exactly the encoded packets", "statement": "Scanning a concatenation of key-length-value packets, with lengths in any BER form, yields exactly those packets in order with their positions; scanning never goes backwards and always ends.", "quantifier": "all packet sequences, all BER length forms, all byte strings", "why_tests_cant": "All inputs.", "anchors": ["src/aaf2/mxf.py:ber_length", "src/aaf2/mxf.py:iter_kl", "src/aaf2/mxf.py:MXFFile.iter_kl"]}
{"id": "C53", "title": "Local-tag sets parse to the tags that were written", "statement": "Parsing the tag/length/value items of an MXF metadata set yields exactly the written items; malformed lengths do not make the parser loop.", "quantifier": "all item lists, all byte strings", "why_tests_cant": "All inputs.", "anchors": ["src/aaf2/mxf.py:iter_tags"]}
{"id": "C54", "title": "Padding positions are rounded up to the alignment grid", "statement": "The position computed for KAG alignment is the smallest multiple of the grid not below the given position.", "quantifier": "all positions and grid sizes", "why_tests_cant": "All pairs.", "anchors": ["src/aaf2/mxf.py:MXFFile.round_to_kag"]}
{"id": "C55", "title": "DNx stream splitting loses nothing", "statement": "Splitting a DNxHD byte stream into frames gives frames whose concatenation is the input up to the last whole frame, each with the size its header announces.", "quantifier": "all byte streams", "why_tests_cant": "All inputs.", "anchors": ["src/aaf2/video.py:iter_dnx_stream", "src/aaf2/video.py:dnx_frame_size", "src/aaf2/video.py:read_dnx_frame_header", "src/aaf2/video.py:valid_dnx_prefix"]}
{"id": "C56", "title": "WAVE and AIFF-C chunk scanning finds the format chunk and terminates", "statement": "Scanning a RIFF/AIFF-C file for its format chunk finds it wherever it is, and ends on every input.", "quantifier": "all chunk sequences and byte strings", "why_tests_cant": "All inputs.", "anchors": ["src/aaf2/ama.py:get_wave_fmt", "src/aaf2/ama.py:get_aifc_fmt"]}
{"id": "C57", "title": "Streams left empty by other software survive a first write", "statement": "A stream whose directory entry carries no sectors, whether its start sector is stored as FREESECT or as ENDOFCHAIN, keeps every byte written to it after close and reopen.", "quantifier": "all container states, all stream entries of size 0, all byte strings written", "why_tests_cant": "The library only ever writes one of the two encodings of an empty chain, so round-trip tests never meet the other; files from other tools are arbitrary.", "anchors": ["src/aaf2/utils.py:60-72", "src/aaf2/cfb.py:280-372"]}
{"id": "C58", "title": "Indirect values carry their type", "statement": "Encoding a value as an Indirect property stores the byte order mark, the identifier of the value's type and the value, and decoding returns the value.", "quantifier": "all types known to the dictionary, all values of the type, type given explicitly or chosen from the value", "why_tests_cant": "Values and types are unbounded; the type identifier and the payload are adjacent byte ranges whose confusion only shows for some payloads.", "anchors": ["src/aaf2/types.py:855-896"]}
{"id": "C59", "title": "The built-in object model is consistent", "statement": "In the dictionary of a new file, with or without the extensions: names and identifiers of classes and types are distinct and look up the same definition; every class has a finite chain of registered ancestors along which no two properties share an id, a name or an identifier; every property's type, every element type, every reference target and every weak-reference path is registered; every enumeration round-trips all its names; every set of objects has a unique key of the size its index records.", "quantifier": "all classes, properties, types, enumeration members and aliases of the base and extension tables", "why_tests_cant": "The tables hold over a hundred classes and nearly two hundred types that refer to each other by identifier; a wrong identifier only shows when a file uses that particular property.", "anchors": ["src/aaf2/metadict.py:340-396", "src/aaf2/model/classdefs.py", "src/aaf2/model/typedefs.py", "src/aaf2/model/ext/classdefs.py", "src/aaf2/model/ext/typedefs.py"]}
{"id": "C60", "title": "Registering classes and properties keeps the dictionary consistent", "statement": "After any sequence of registrations of classes, properties, aliases and types that leave dynamic ids to the library, a class is found by identifier and by name, what was registered stays registered, and dynamically chosen property ids are distinct across the whole dictionary and never collide with static ones; a class whose name is taken is refused.", "quantifier": "all sequences of registrations, all names, identifiers and parents", "why_tests_cant": "Registration order and the set of already used ids are unbounded; collisions need particular histories.", "anchors": ["src/aaf2/metadict.py:85-170", "src/aaf2/metadict.py:398-470"]}
{"id": "C62", "title": "An object's properties are found by id, identifier and name", "statement": "For an object of any class, looking a property up by id, by identifier or by name returns the one definition of that kind in the class or its ancestors; a name the object has an entry for returns the entry, another name of the class a fresh property in the format of its type, an unknown name nothing; saving is refused exactly if a required property is absent.", "quantifier": "all dictionaries built by registration, all class hierarchies, all objects, all keys", "why_tests_cant": "Depth of the hierarchy and set of entries are unbounded; lookups mix per-class dictionaries with a linear search.", "anchors": ["src/aaf2/metadict.py:125-201", "src/aaf2/properties.py:102-121", "src/aaf2/core.py:111-133", "src/aaf2/core.py:302-323"]}
{"id": "C61", "title": "Definitions copied from another file's dictionary keep their meaning", "statement": "Registering a class or type of another dictionary makes it known under the same identifier, with its properties and their identifiers, names, types and optionality (ids below 0x8000 kept, others chosen anew), its ancestors and the types used; what the file had before stays, lookups stay consistent, and a copied type has the name, kind and meaning of the original.", "quantifier": "all pairs of dictionaries built by registrations and copies, all classes and types, any depth of nesting", "why_tests_cant": "The copy recurses through classes and types of both dictionaries; clashes need particular combinations of the two.", "anchors": ["src/aaf2/metadict.py:440-509", "src/aaf2/types.py:88-101", "src/aaf2/core.py:249-280"]}
{"id": "C63", "title": "A saved object tree is read back as it was", "statement": "Writing an object with every property kind (values, streams, strong references, vectors, sets, weak references and their arrays), and all objects below it, into a directory and reading that directory gives the same object, property by property; what the library builds can always be written and never makes two parts use the same directory entry.", "quantifier": "all object trees of any depth and width, all property names and ids, all directories written to", "why_tests_cant": "Trees are unbounded and names of streams and storages are derived from property names, ids and local keys, so collisions depend on combinations.", "anchors": ["src/aaf2/core.py:59-216", "src/aaf2/properties.py:143-330", "src/aaf2/properties.py:382-480", "src/aaf2/properties.py:653-790", "src/aaf2/properties.py:925-1010", "src/aaf2/properties.py:1097-1160", "src/aaf2/file.py:101-144"]}
{"id": "C64", "title": "A copied object has the content of the original", "statement": "Copying any object, within its file or to another, gives an object with the same content (classes, values, streams, elements in order and under the same keys, weak reference targets), properties under the ids of the other file, and the copy can be saved and read back.", "quantifier": "all object trees, all destination files", "why_tests_cant": "Copies recurse over unbounded trees; failures need empty collections, removed elements or differing dynamic ids.", "anchors": ["src/aaf2/core.py:249-280", "src/aaf2/properties.py:138-141", "src/aaf2/properties.py:192-206", "src/aaf2/properties.py:318-330", "src/aaf2/properties.py:430-447", "src/aaf2/properties.py:720-736", "src/aaf2/properties.py:1005-1031", "src/aaf2/properties.py:1108-1122"]}
{"id": "C65", "title": "Saving an edited file stores what is in memory", "statement": "However an open file is edited (values set and deleted, references replaced, vectors and sets changed, streams written, at any place of the object tree) and saved in between, saving it stores exactly the objects in memory: reading the file again gives them back, and each change has on the objects the effect of the corresponding list or dictionary operation and no other.", "quantifier": "all files created or opened, all sequences of edits and saves, all places in trees of any size", "why_tests_cant": "Only modified objects are written, so a missing mark shows only for particular interleavings of saves, detached subtrees and edits at different depths; sequences and trees are unbounded.", "anchors": ["src/aaf2/file.py:61-144", "src/aaf2/core.py:135-247", "src/aaf2/properties.py:56-67", "src/aaf2/properties.py:149-176", "src/aaf2/properties.py:227-287", "src/aaf2/properties.py:351-404", "src/aaf2/properties.py:540-686", "src/aaf2/properties.py:868-984"]}
{"id": "C66", "title": "One object in memory per place in the file", "statement": "Whatever is read, changed, attached, detached, let go and collected, asking for the object at a place in the file gives the one object in memory for it, holding what was put in last, even if it left all caches and memory in between; saving stores what was put in last at every place and fails only for objects that lack required properties; a file opened for reading is not changed.", "quantifier": "all files, all sequences of reads, changes, attachments, detachments, dropped references, collections, saves, any number of objects", "why_tests_cant": "The object is found through a weak dictionary, a cache of 513 objects, weak references in properties and the modified objects; which of them still has it depends on the order of evictions and collections over unbounded histories.", "anchors": ["src/aaf2/file.py:61-144", "src/aaf2/cache.py:18-100", "src/aaf2/properties.py:60-67", "src/aaf2/properties.py:297-404", "src/aaf2/properties.py:507-526", "src/aaf2/properties.py:808-821", "src/aaf2/core.py:109-216"]}
{"id": "C67", "title": "Opening a file merges its definitions with the built-in ones", "statement": "After opening a file, every class and type the file defines is found by identifier and name exactly as the file has it, with the ids the file uses; every built-in definition the file lacks is still there, the same up to dynamic ids; in a file opened for writing no dynamic property id is used twice, later registrations choose fresh ones, everything known is stored with the file, and opening succeeds.", "quantifier": "all sets of class and type definitions a file can contain, any number of classes, properties and dynamic ids, opened for reading or writing", "why_tests_cant": "Which built-in ids collide depends on the ids other software chose for the file; the merge renames ids one by one in a shared table while walking two dictionaries, over unboundedly many possible files.", "anchors": ["src/aaf2/metadict.py:560-624", "src/aaf2/metadict.py:537-558", "src/aaf2/metadict.py:285-296", "src/aaf2/metadict.py:398-438", "src/aaf2/file.py:210-222"]}
{"id": "C68", "title": "Weak references lead to the objects they were set to", "statement": "After a weak reference, or an array or set of them, is set to objects of the file, reading it gives exactly those objects, in order, for as long as they are in the set their type names, also after further references are set and after saving and reading the file; setting refuses objects of another class or another file, and whatever is accepted can be read; nothing but the object under the stored key is ever found.", "quantifier": "all object trees, reference tables and their later extensions, all reference types of any meta dictionary (all built-in ones meet the hypotheses), all sequences of objects", "why_tests_cant": "A reference is stored as a key and an index into a table of paths shared by the whole file; whether it still resolves depends on every later change of the table and the tree, over unboundedly many of both.", "anchors": ["src/aaf2/properties.py:990-1256", "src/aaf2/file.py:280-304", "src/aaf2/types.py:184-217", "src/aaf2/properties.py:49-50"]}
{"id": "C69", "title": "The dictionary's lookups, registration and merge are faithful", "statement": "Looking up a definition by its identifier gives the definition registered under it, by name the definition of that name (short or with its old prefix, in any case) and an error if there is none; registering adds the definition to the set of its kind and changes nothing else; updating from the dictionary of another file adds exactly the definitions that are missing, keeps the others, merges the parameters of operations in both, and leaves no reference without its definition; doing it twice changes nothing.", "quantifier": "all dictionaries in which references lead to definitions, all definitions, names and lower-case mappings, all pairs of dictionaries", "why_tests_cant": "The merge goes through seven kinds of definitions that refer to each other, so whether it succeeds and stays sound depends on the order and on all pairs of shared and missing definitions, over dictionaries of any size.", "anchors": ["src/aaf2/dictionary.py:15-62", "src/aaf2/dictionary.py:194-281", "src/aaf2/properties.py:1008-1033", "src/aaf2/properties.py:1107-1125"]}
{"id": "C70", "title": "Walking a source clip follows what it refers to", "statement": "SourceClip.walk yields, in order, exactly the chain of segments the clip leads to: the segment of the slot it refers to, or the component of a sequence at the clip's point of time, and so on from each clip that is reached; it ends at a clip that refers to nothing in the file or at a segment that is no clip, fails only where the chain cannot be followed, stays at the point of time the first clip starts at, and comes to an end.", "quantifier": "all contents (mobs, slots, sequences of any length), all clips, chains of any length", "why_tests_cant": "Chains are unboundedly long, may be cyclic, and each step depends on the sums of lengths of all components before; tests only walk a few files.", "anchors": ["src/aaf2/components.py:195-231", "src/aaf2/components.py:83-119", "src/aaf2/components.py:151-169", "src/aaf2/mobs.py:83-87"]}
{"id": "C71", "title": "Comments and other tagged values are a map", "statement": "A list of tagged values read through TaggedValueHelper is a map from names to values: after any assignments each name has the value assigned to it last, names that were not assigned are not there, names are listed once, in the order of their first use, and an assignment that fails changes nothing.", "quantifier": "all lists of tagged values, all sequences of assignments, all names and values (text, integers, rationals; others are refused)", "why_tests_cant": "The map is a linear search over stored, encoded names, with values encoded under a type chosen from the value; the claim is about every sequence of assignments and every text.", "anchors": ["src/aaf2/misc.py:22-95", "src/aaf2/properties.py:143-166", "src/aaf2/types.py:859-898"]}
{"id": "C72", "title": "Values in MXF header metadata are decoded as written", "statement": "The decoders for the values of MXF header metadata (reference arrays, rationals, video line maps, pixel layouts, timestamps, UMIDs, UTF-16 names, identifiers with exchanged halves, and indirect values) return the value whose MXF encoding they are given.", "quantifier": "for all reference lists, signed 32-bit rationals, line maps, pixel layouts of up to eight components, dates and times, 32-byte UMIDs, identifiers, Unicode texts, and following bytes", "why_tests_cant": "Each decoder has a large value space with special cases (signs, leap years, half swapped material numbers, null characters, surrogate pairs); tests link a few files of two vendors.", "anchors": ["src/aaf2/mxf.py:40-53", "src/aaf2/mxf.py:56-64", "src/aaf2/mxf.py:75-142"]}
