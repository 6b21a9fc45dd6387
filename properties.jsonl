{"id": "C01", "title": "Entity handle packing is lossless", "statement": "For every index below 2^24 and every version byte, an Entity built from them reports exactly that index and version and its raw value is index*256+version; every 32-bit raw value is such a pair; set_index changes only the index and set_version only the version.", "quantifier": "all indices < 2^24, all version bytes, all 32-bit raw handles", "why_tests_cant": "2^32 handles; tests try one index and two versions", "anchors": ["src/entity_registry/entity.rs: Entity::{new_unchecked,from_raw,index,version,set_index,set_version,raw,is_valid,INVALID}"]}
{"id": "C02", "title": "IndexInArchetype accepts exactly the representable indices", "statement": "IndexInArchetype::new rejects exactly the values >= 16777215, and for every 24-bit value the three-byte encoding decodes back to the same value.", "quantifier": "all u32 values", "why_tests_cant": "2^24 values, tests try ten", "anchors": ["src/entity_registry/index_in_archetype.rs: IndexInArchetype::{new,new_unchecked,from_bytes,to_bytes,value}", "src/entity_registry/archetype_index.rs: ArchetypeIndex::new"]}
{"id": "C03", "title": "Entity table entries store independent fields", "statement": "Setting version, index_in_archetype or archetype_index of an EntityEntry makes the getter return the set value and leaves the two other fields unchanged; an entry is valid iff its archetype index is not 65535; invalidate(n) makes it invalid, stores n and keeps the version. This holds on little- and big-endian targets.", "quantifier": "all entries (six arbitrary bytes), all field values in range, both endiannesses", "why_tests_cant": "tests try ten values per field on one machine", "anchors": ["src/entity_registry/entry.rs: EntityEntry"]}
{"id": "C04", "title": "FNV-1a helpers compute FNV-1a of the requested prefix", "statement": "fnv1a_hash_32 / fnv1a_hash_64 equal the textbook FNV-1a of the first `limit` bytes when 0 < limit <= len and of the whole slice otherwise, always fit 32/64 bits, and fnv1a_hash_16_xor equals the xor of the high and low halves of the 32-bit hash on every endianness, so component type ids derived from names are platform independent.", "quantifier": "all byte strings, all limits, both endiannesses", "why_tests_cant": "unbounded inputs and another-endian machines", "anchors": ["src/fnv1a.rs", "src/descriptors/component.rs: Component::ID"]}
{"id": "C05", "title": "One-byte differences never collide under FNV-1a", "statement": "Two byte strings of equal length that differ in exactly one byte have different 32-bit (and 64-bit) FNV-1a hashes.", "quantifier": "all pairs of byte strings differing in one position", "why_tests_cant": "unbounded inputs; needs invertibility of the FNV step", "anchors": ["src/fnv1a.rs: fnv1a_hash_32, fnv1a_hash_64"]}
{"id": "C06", "title": "A component group is valid exactly when it is a set of 1..14 distinct ids", "statement": "G::DESCRIPTOR.is_valid() holds iff the tuple has 1 to 14 components, no two with the same component type id, and the 32-bit archetype hash is not u32::MAX; an invalid descriptor has length 0.", "quantifier": "all lists of component descriptors", "why_tests_cant": "2^16 ids per position, 14 positions", "anchors": ["src/descriptors/component_group_descriptor.rs: ComponentGroupDescriptor::{new,validate_component_descriptors,INVALID}"]}
{"id": "C07", "title": "Tuple order is irrelevant", "statement": "Any permutation of a component tuple yields the same archetype descriptor: same id, same length, same strictly sorted component list, which is a permutation of the tuple.", "quantifier": "all valid component lists and all permutations of them", "why_tests_cant": "14! orders times all id choices", "anchors": ["src/descriptors/component_group_descriptor.rs: compute_sorted_descriptors", "src/descriptors/archetype_descriptor.rs: compute_archetype_id"]}
{"id": "C08", "title": "Sort mappings are mutually inverse and address the right component", "statement": "For a valid group of n components, unsorted_to_sorted and sorted_to_unsorted are inverse permutations of 0..n-1, and the descriptor at sorted position unsorted_to_sorted(i) is the descriptor of tuple element i.", "quantifier": "all valid component lists", "why_tests_cant": "14! orders", "anchors": ["src/descriptors/component_group_descriptor.rs: compute_sort_mappings, unsorted_to_sorted, sorted_to_unsorted"]}
{"id": "C09", "title": "Subset, exclusion and membership tests decide the set relations", "statement": "On descriptors the crate builds, contains_subset(d) holds iff every component id of d is in self, excludes_subset(d) iff none is, has_component::<C>() iff C's id is in self.", "quantifier": "all well-formed archetype descriptors", "why_tests_cant": "exponentially many id sets", "anchors": ["src/descriptors/archetype_descriptor.rs: contains_subset, excludes_subset, has_component"]}
{"id": "C10", "title": "Extending an archetype descriptor by a component", "statement": "ArchetypeDescriptor::add_component returns None iff the descriptor is full (14) or already has the component; otherwise Some descriptor whose strictly sorted component list is the old one plus the new component.", "quantifier": "all well-formed descriptors and component descriptors", "why_tests_cant": "boundary at 13/14 components is never tested", "anchors": ["src/descriptors/archetype_descriptor.rs: add_component"]}
{"id": "C11", "title": "Shrinking an archetype descriptor by a component", "statement": "ArchetypeDescriptor::remove_component returns None iff the component is absent or it is the only one; otherwise Some descriptor whose strictly sorted component list is the old one minus that component.", "quantifier": "all well-formed descriptors and component ids", "why_tests_cant": "boundary at 14 components is never tested", "anchors": ["src/descriptors/archetype_descriptor.rs: remove_component"]}
{"id": "C12", "title": "One archetype identity per component set", "statement": "Two ways of naming the same set of components - as a tuple type, or by adding/removing a component from another archetype - give the same archetype id.", "quantifier": "all component sets", "why_tests_cant": "needs all sets and both construction routes", "anchors": ["src/descriptors/component_group_descriptor.rs: new (hash over all 14 padded slots)", "src/descriptors/archetype_descriptor.rs: add_component, remove_component, compute_archetype_id"]}
{"id": "C13", "title": "Different component sets never share an archetype", "statement": "Creating entities with two different component sets of the same size puts them in different archetypes.", "quantifier": "all pairs of component sets", "why_tests_cant": "a 32-bit hash; colliding pairs are not found by sampling", "anchors": ["src/archetype_registry/mod.rs: find_or_create_archetype", "src/descriptors/archetype_descriptor.rs: compute_archetype_id"]}
{"id": "C14", "title": "Different component types never alias", "statement": "Two component types with different names are distinguished: has_component / get_component of one is never satisfied by the other.", "quantifier": "all pairs of names", "why_tests_cant": "a 16-bit hash of the name", "anchors": ["src/descriptors/component.rs: Component::ID", "src/fnv1a.rs: fnv1a_hash_str_16_xor"]}
{"id": "C15", "title": "Binary search finds exactly the present keys", "statement": "On strictly sorted keys, the lookup used everywhere returns the index of the key if present and otherwise the insertion index that keeps the list sorted.", "quantifier": "all strictly sorted lists and keys", "why_tests_cant": "unbounded lists", "anchors": ["src/archetype_registry/mod.rs: binary_search_by_key uses", "src/descriptors/archetype_descriptor.rs: binary_search_by_key uses"]}
{"id": "C16", "title": "A created handle is fresh", "statement": "create_entity never returns a handle, nor a slot index, that is live at that moment; hence live entities have pairwise different handles and indices.", "quantifier": "all histories of create/destroy on the entity registry and on the registry", "why_tests_cant": "unbounded histories", "anchors": ["src/entity_registry/mod.rs: EntityRegistry::{create_entity,destroy_entity,entity_entry}"]}
{"id": "C17", "title": "The invalid handle is never issued and never accepted", "statement": "Entity::INVALID is never returned by create_entity and every operation on it fails, in every reachable state.", "quantifier": "all histories", "why_tests_cant": "the collision would need 2^24 entities", "anchors": ["src/entity_registry/entity.rs: Entity::INVALID", "src/entity_registry/mod.rs"]}
{"id": "C18", "title": "Destroyed handles stop working at once", "statement": "After destroy_entity or remove_entity succeeds on a handle, every operation on that handle fails (false / None / Err) and changes nothing, until a later create returns the same handle again.", "quantifier": "all reachable states and handles", "why_tests_cant": "all histories", "anchors": ["src/registry/registry.rs: destroy_entity, remove_entity", "src/entity_registry/mod.rs: entity_entry"]}
{"id": "C19", "title": "Stale handles stay dead for 255 further reuses", "statement": "After a handle is destroyed it can only become valid again after its slot has been destroyed 256 times (counting the first); with fewer destructions of that slot it is rejected whatever else happens.", "quantifier": "all histories after the destruction", "why_tests_cant": "needs counting over unbounded histories", "anchors": ["src/entity_registry/mod.rs: destroy_entity (version wrapping_add)", "examples/create_destroy_entity.rs: lines 52-57"]}
{"id": "C20", "title": "The free list holds exactly the dead slots", "statement": "In every reachable state following next_free_slot visits every dead slot exactly once, no live slot, and ends; creation reuses the most recently freed slot and only grows the table when no slot is free, so the table never exceeds the largest number of entities that were live at once.", "quantifier": "all histories", "why_tests_cant": "linked-list shape over all histories; the repo's test only checks a few", "anchors": ["src/entity_registry/mod.rs: create_entity, destroy_entity, next_free_slot"]}
{"id": "C21", "title": "Room for 16,777,215 entities, and destroying makes room again", "statement": "create_entity on the entity registry fails only while 16,777,215 entities are live; after destroying one, creating one succeeds.", "quantifier": "all histories, including full tables", "why_tests_cant": "needs 16.7 million entities", "anchors": ["src/entity_registry/mod.rs: create_entity, can_register_new_entity, MAX_ENTITY_COUNT"]}
{"id": "C22", "title": "iter_entities yields exactly the live handles", "statement": "iter_entities returns each live handle exactly once, in increasing slot order, and nothing else; the iterator is fused.", "quantifier": "all reachable states", "why_tests_cant": "all histories", "anchors": ["src/entity_registry/iterator.rs: EntityIter", "src/registry/registry.rs: iter_entities"]}
{"id": "C23", "title": "Creating an entity stores exactly the given components", "statement": "After create_entity(components) returns Ok(e), e has exactly the components of the tuple with the given values (whatever the tuple order), and every other entity keeps its components and values. On Err the same components are handed back and no entity changes.", "quantifier": "all reachable states, all valid tuples and values", "why_tests_cant": "all histories, archetype growth and swaps", "anchors": ["src/registry/registry.rs: create_entity", "src/archetype/data_access.rs: push_entity_unchecked, write_entity_unchecked, resize_if_necessary"]}
{"id": "C24", "title": "Destroying an entity affects only that entity", "statement": "destroy_entity(e) returns true iff e is live; then e is gone and every other entity keeps its components and values, even though storage rows are swapped. On false nothing changes.", "quantifier": "all reachable states and handles", "why_tests_cant": "all histories; swap-with-last bookkeeping", "anchors": ["src/registry/registry.rs: destroy_entity", "src/archetype/data_access.rs: swap_drop_unchecked, swap_entities"]}
{"id": "C25", "title": "remove_entity returns the entity's components, exactly on a match", "statement": "remove_entity::<G>(e) returns Some(components) in tuple order iff e is live and its component set is exactly G, and then e is gone and nothing else changes; otherwise it returns None and leaves everything unchanged.", "quantifier": "all reachable states, handles and tuple types", "why_tests_cant": "all mismatching tuple types", "anchors": ["src/registry/registry.rs: remove_entity", "src/archetype/data_access.rs: swap_remove_unchecked, read_components_exact_unchecked"]}
{"id": "C26", "title": "Presence tests and getters agree with the entity's component set", "statement": "has_component::<C>(e) and get_component::<C>(e).is_some() hold iff e is live and has C; get_component returns the current value; has_components::<G>(e) holds iff e is live and has every component of G; none of them changes anything.", "quantifier": "all reachable states, handles, component types and tuples (including tuples with repeated types)", "why_tests_cant": "all histories and all tuples", "anchors": ["src/registry/registry.rs: has_component, has_components, get_component", "src/descriptors/archetype_descriptor.rs: contains_subset"]}
{"id": "C27", "title": "Tuple getters return the right components in tuple order", "statement": "get_components::<G>(e) is Some iff e is live and has every component of G, and then the i-th reference is e's current component of the i-th tuple type; it never dereferences an invalid pointer.", "quantifier": "all reachable states, handles and tuples", "why_tests_cant": "all orders and supersets; repeated types", "anchors": ["src/registry/registry.rs: get_components, get_components_mut", "src/archetype/data_access.rs: get_fuzzy_components_unchecked, get_fuzzy_pointers_unchecked"]}
{"id": "C28", "title": "Writes through mutable references hit exactly one component", "statement": "Storing through get_component_mut::<C>(e) or get_components_mut::<G>(e) changes exactly e's named components; the references of one get_components_mut call are pairwise disjoint.", "quantifier": "all reachable states, handles, tuples and values", "why_tests_cant": "aliasing across all storage layouts", "anchors": ["src/registry/registry.rs: get_component_mut, get_components_mut"]}
{"id": "C29", "title": "Adding a component", "statement": "add_component(e, c) returns Ok iff e is live, lacks that component, has fewer than 14 components and the destination archetype can exist; then e keeps all other components, gains c, and no other entity changes. Otherwise it returns Err(c) with the same value and changes nothing.", "quantifier": "all reachable states, handles, components", "why_tests_cant": "all histories; moves between archetypes with row swaps; the 14-component boundary", "anchors": ["src/registry/registry.rs: add_component", "src/archetype/data_access.rs: copy_common_components_between_archetypes_unchecked, write_single_component_unchecked, swap_to_last_unchecked"]}
{"id": "C30", "title": "Removing a component", "statement": "remove_component::<C>(e) returns Ok(value) iff e is live, has C and at least one other component and the destination archetype can exist; then e keeps its other components, loses C, and no other entity changes. Otherwise it returns Err and changes nothing.", "quantifier": "all reachable states, handles, component types", "why_tests_cant": "all histories; the 14-component boundary", "anchors": ["src/registry/registry.rs: remove_component", "src/archetype/data_access.rs: read_component_unchecked"]}
{"id": "C31", "title": "The registry behaves like a map from entities to component maps", "statement": "For every sequence of API calls within the documented contracts, all return values are those of a simple map from live handles to component-id/value maps.", "quantifier": "all finite sequences of operations", "why_tests_cant": "unbounded histories", "anchors": ["src/registry/registry.rs: all of impl Registry"]}
{"id": "C32", "title": "No undefined behaviour or panic within the contract", "statement": "For every sequence of API calls within the contracts (distinct component ids, no archetype-hash collision, non-zero-sized components, per-archetype and 14-component limits) no call dereferences a null, out-of-bounds, uninitialised or wrongly typed location, mis-sizes a (re/de)allocation, or panics.", "quantifier": "all finite sequences of operations", "why_tests_cant": "unbounded histories of unsafe pointer code", "anchors": ["src/archetype/data_access.rs", "src/archetype/mod.rs", "src/registry/registry.rs"]}
{"id": "C33", "title": "Every component is dropped or handed back exactly once", "statement": "At every point of every history, the components given to the registry are, as a multiset, exactly those still stored plus those handed back to the caller plus those dropped: no leak, no double drop.", "quantifier": "all finite sequences of operations", "why_tests_cant": "unbounded histories; ownership is manual (ptr::read, forget, ManuallyDrop)", "anchors": ["src/archetype/data_access.rs: drop_entity, drop_entities, swap_drop_unchecked, swap_remove_unchecked, decrement_len_unchecked", "src/descriptors/component_descriptor.rs: drop_handler_wrapper"]}
{"id": "C34", "title": "Dropping the registry releases everything", "statement": "Dropping the registry drops every stored component exactly once and frees every allocation it made, each with the layout it was allocated with.", "quantifier": "all reachable states", "why_tests_cant": "unbounded histories", "anchors": ["src/archetype/mod.rs: impl Drop for Archetype", "src/archetype/data_access.rs: dealloc"]}
{"id": "C35", "title": "Matching iteration visits exactly the entities having the components", "statement": "iter_components_matching / iter_entity_components_matching visit each live entity having all components of G exactly once, with its current values in tuple order and its own handle at the same position, and no other entity.", "quantifier": "all reachable states and tuples", "why_tests_cant": "all archetype populations", "anchors": ["src/archetype_registry/iterators/archetype_iter.rs", "src/archetype_registry/iterators/matching_iter.rs", "src/archetype/data_access.rs: get_fuzzy_slices_unchecked, get_entity_fuzzy_slices_unchecked"]}
{"id": "C36", "title": "Filtered iteration is matching iteration restricted by the closure", "statement": "The filtered iterators visit exactly those entities that the matching iterators visit and whose archetype descriptor satisfies the closure, with the same data.", "quantifier": "all reachable states, tuples and predicates", "why_tests_cant": "all predicates", "anchors": ["src/archetype_registry/iterators/filter_archetype_iter.rs", "src/archetype_registry/iterators/filter_matching_iter.rs"]}
{"id": "C37", "title": "Mutable iteration never aliases and writes land where they should", "statement": "No storage location is handed out twice during one mutable iteration; mapping every visited component through a function changes exactly the G-components of the entities having all of G.", "quantifier": "all reachable states, tuples and functions", "why_tests_cant": "unsafe pointer aliasing over all populations", "anchors": ["src/archetype_registry/iterators/archetype_iter_mut.rs", "src/archetype_registry/iterators/matching_iter_mut.rs", "src/archetype_registry/iterators/filter_archetype_iter_mut.rs"]}
{"id": "C38", "title": "Exact iteration visits exactly the entities with that component set", "statement": "iter_components_exact / iter_entity_components_exact visit exactly the live entities whose component set is G, each once, with current values.", "quantifier": "all reachable states and tuples", "why_tests_cant": "all histories that reach the same set by different routes", "anchors": ["src/registry/registry.rs: iter_components_exact, iter_entity_components_exact and _mut variants", "src/archetype_registry/mod.rs: find_archetype"]}
{"id": "C39", "title": "Iterators are fused", "statement": "Once an archetype or entity iterator has returned None it returns None forever.", "quantifier": "all iterator states and registries", "why_tests_cant": "all states", "anchors": ["src/archetype_registry/iterators/archetype_iter.rs: next", "src/entity_registry/iterator.rs: next"]}
{"id": "C40", "title": "Failed calls change nothing", "statement": "A call that returns Err / false / None leaves every entity, every value and the set of live handles as they were.", "quantifier": "all reachable states and calls", "why_tests_cant": "all failure paths in all states", "anchors": ["src/registry/registry.rs"]}
{"id": "C41", "title": "An archetype holds as many entities as documented", "statement": "An archetype accepts entities up to MAX_ENTITIES_PER_ARCHETYPE (16,777,215): growing it keeps all rows and pushing below the limit succeeds.", "quantifier": "all sizes", "why_tests_cant": "needs 8.4 million entities", "anchors": ["src/archetype/data_access.rs: resize_if_necessary, resize_capacity, dealloc", "src/constants.rs: MAX_ENTITIES_PER_ARCHETYPE"]}
{"id": "C42", "title": "Archetype lookup is a function of the archetype id", "statement": "After find_or_create_archetype(d) returns index k, looking up the same id and length returns k forever; two archetypes never share id and length; indices of existing archetypes never change; creation fails exactly when the id is new and 65534 archetypes exist or d is invalid.", "quantifier": "all histories of the archetype registry", "why_tests_cant": "unbounded histories", "anchors": ["src/archetype_registry/mod.rs: find_archetype, find_or_create_archetype"]}
{"id": "C43", "title": "Out-of-range source archetypes are rejected", "statement": "find_or_create_archetype_adding_component / _removing_component return None for every source index that is not an existing archetype.", "quantifier": "all registries and indices", "why_tests_cant": "boundary index never tested", "anchors": ["src/archetype_registry/mod.rs: find_or_create_archetype_adding_component, find_or_create_archetype_removing_component"]}
{"id": "C44", "title": "disjoint_mut returns the two requested elements", "statement": "disjoint_mut(s, i, j) is None iff i = j or an index is out of range, and otherwise returns references to s[i] and s[j], in that order.", "quantifier": "all slices and indices", "why_tests_cant": "unbounded slices", "anchors": ["src/archetype_registry/mod.rs: disjoint_mut"]}
{"id": "C45", "title": "A panicking component destructor does not corrupt other entities", "statement": "If a component's destructor panics during destroy_entity and the panic is caught, every other entity still has its own components and nothing is dropped twice later.", "quantifier": "all reachable states and panicking positions", "why_tests_cant": "crash points", "anchors": ["src/registry/registry.rs: destroy_entity", "src/archetype/data_access.rs: swap_drop_unchecked, drop_entity"]}
{"id": "C46", "title": "An allocation failure does not corrupt the registry", "statement": "If an allocation fails (panics) during create_entity or add_component and the panic is caught, every entity still has its components and values, and the registry stays usable.", "quantifier": "all reachable states and all positions of the failing allocation", "why_tests_cant": "crash points", "anchors": ["src/archetype/mod.rs: with_capacity", "src/archetype/data_access.rs: resize_capacity", "src/registry/registry.rs: create_entity, add_component"]}
{"id": "C47", "title": "Zero-sized components are usable", "statement": "Components of size zero can be stored without undefined behaviour.", "quantifier": "all component types", "why_tests_cant": "allocator contract violation, invisible to tests", "anchors": ["src/archetype/mod.rs: with_capacity", "src/archetype/data_access.rs: resize_capacity, dealloc"]}
{"id": "C48", "title": "Debug and release builds agree", "statement": "For calls within the contract, a build with debug assertions and overflow checks returns the same results and reaches the same state as a release build.", "quantifier": "all finite sequences of operations", "why_tests_cant": "two build profiles, unbounded histories", "anchors": ["all debug_assert!, `len() - 1` and overflow sites in src/"]}
{"id": "C49", "title": "Endianness does not change behaviour", "statement": "For every sequence of calls for which archetype ids do not collide on either target, results on little- and big-endian targets are the same.", "quantifier": "all finite sequences of operations", "why_tests_cant": "needs two machines", "anchors": ["src/descriptors/archetype_descriptor.rs: compute_archetype_id (to_ne_bytes)", "src/entity_registry/entry.rs"]}
{"id": "C50", "title": "Invalid tuple types are rejected", "statement": "A tuple type that is not valid (repeats a component, or hashes to the reserved archetype id) is rejected by every call: create returns Err, has_components false, get_components and remove_entity None, iteration visits nothing, and nothing changes.", "quantifier": "all registries, all invalid tuple types, all handles", "why_tests_cant": "all registry states and all tuple types", "anchors": ["src/registry/registry.rs: create_entity, has_components, get_components, remove_entity", "src/descriptors/component_group.rs: DESCRIPTOR", "src/archetype/data_access.rs: get_fuzzy_components, read_components_exact_unchecked", "src/archetype_registry/iterators"]}
{"id": "C51", "title": "Component size and alignment limits are enforced", "statement": "A component type whose size or alignment does not fit 16 bits is either handled correctly or rejected; nothing the library stores or hands out is ever truncated.", "quantifier": "all registries reachable by any client, all component types", "why_tests_cant": "silent truncation: a test with ordinary components never sees it, and the effect is memory corruption", "anchors": ["src/descriptors/component_descriptor.rs: define_component_descriptor", "src/descriptors/component.rs", "src/archetype/mod.rs: with_capacity", "src/archetype/data_access.rs: write_entity_unchecked"]}
{"id": "C52", "title": "The registry is a deterministic reference machine", "statement": "For every program of in-contract calls, each output (including the handle chosen by create_entity, the order in which iterators visit archetypes and rows, and the order of iter_entities) equals the output of a small reference implementation that keeps lists of handles per archetype, slot versions and a stack of free slots.", "quantifier": "all finite programs of in-contract operations", "why_tests_cant": "equality of complete outputs over unbounded call sequences; tests fix a few sequences and rarely check order or handle values", "anchors": ["src/entity_registry/mod.rs: create_entity, destroy_entity", "src/archetype_registry/mod.rs: find_or_create_archetype", "src/archetype/mod.rs: swap_drop_unchecked, swap_to_unchecked", "src/archetype_registry/iterators/matching_iter.rs"]}
{"id": "C53", "title": "The byte-level storage implements the element-level storage", "statement": "With every pointer a block plus byte offset and one heap of bytes shared by all archetypes, no program of in-contract calls makes an unaligned, out-of-bounds, null, dangling, overlapping-copy, wrongly typed or uninitialised access or a (de/re)allocation with a wrong layout, wherever the allocator places blocks; each call returns what the reference implementation returns; and dropping the registry afterwards leaves no live block.", "quantifier": "all finite programs of in-contract operations, all placements of blocks, all component sizes and alignments Rust allows (1..65535 bytes)", "why_tests_cant": "depends on every size/alignment mix, every growth and swap history and on allocator placement; a wrong stride often reads plausible bytes", "anchors": ["src/archetype/mod.rs: with_capacity, resize_capacity, swap_*", "src/archetype/data_access.rs: all pointer arithmetic", "src/descriptors/component_group.rs: pointers_as_*, slice_unchecked*"]}
{"id": "C54", "title": "References handed out are valid and share no byte", "statement": "Every &mut handed out by get_component_mut, get_components_mut and the six mutable iterations covers size_of::<C>() bytes inside one live block at an address aligned for C holding one initialised C, and no two references of the same call or iteration share a byte.", "quantifier": "all programs of in-contract calls, all tuples and filters, all placements of blocks", "why_tests_cant": "aliasing &mut is undefined behaviour without visible effect", "anchors": ["src/archetype/data_access.rs: get_fuzzy_slices_unchecked_mut, get_fuzzy_components_unchecked_mut, get_slices_unchecked_exact_mut, get_component_unchecked_mut", "src/descriptors/component_group.rs: slice_unchecked_mut", "src/registry/registry.rs: get_component_mut, iter_*_mut"]}
{"id": "C55", "title": "Memory requests and destructor calls are exactly predictable", "statement": "The sequence of allocator requests and destructor calls of a program is the one given by a small specification: creating an archetype obtains its arrays for 128 entities, handles first and then the columns by component id; a full archetype that receives an entity doubles all its arrays in that order; destroy_entity runs the destructors of that entity's components by id; no other call allocates, releases or drops; dropping the registry visits archetypes in creation order, dropping values column by column and then releasing the columns and the handles. Hence the capacity of an archetype is the smallest of 128, 256, 512, ... that has room for the most entities it ever held.", "quantifier": "all finite programs of in-contract operations, element-level and byte-level model", "why_tests_cant": "order, size and timing of every request over all histories; an early, late, repeated or missing growth is invisible to results", "anchors": ["src/archetype/mod.rs: with_capacity, drop", "src/archetype/data_access.rs: resize_if_necessary, resize_capacity, dealloc, drop_entity, drop_entities, swap_drop_unchecked", "src/archetype_registry/mod.rs: find_or_create_archetype"]}
{"id": "C56", "title": "An archetype used on its own is a growable table of rows", "statement": "An Archetype created with a capacity from 1 to 16777215 and used directly behaves as a list of rows (a handle and one value per component): push_entity, push_uninitialized_entity, write_entity, write_single_component, the single, tuple and slice accessors (exact, fuzzy, with handles; shared and mutable), swap_entities, swap_to_last, swap_drop, swap_remove, decrement_len, read_component(s), entities, len, capacity and is_full return what the list says; a full table doubles, swap_drop and dropping the archetype run the destructors of exactly the stored values in the specified order, and nothing else allocates, releases or drops. A full table that cannot double below 16777215 panics (debug) or is undefined behaviour (release) on the next row. An archetype created with capacity 0 or above 16777215 requests no memory and can only be dropped: even the safe method entities() is undefined behaviour on it.", "quantifier": "all component sets, all capacities, all finite sequences of calls meeting their documented requirements", "why_tests_cant": "unbounded call sequences over 22 methods; capacities up to 16 million; undefined behaviour that usually goes unnoticed (slices from null)", "anchors": ["src/archetype/mod.rs: with_capacity, drop", "src/archetype/data_access.rs: every pub fn", "src/archetype/tests.rs"]}
{"id": "C57", "title": "The outcome of every program is predicted, misuse included", "statement": "For every sequence of registry calls with well-typed arguments, made by a client that catches panics and goes on, a small reference implementation predicts for each call whether it returns (and what), panics, or is undefined behaviour, and the registry does exactly that. This includes tuple types with a repeated component, remove_entity with a tuple type that is not the entity's (it returns if the sorted tuple is a prefix of the entity's components, leaking the rest, and is undefined behaviour otherwise), add_component at 13 and remove_component at 14 components (they panic and leave the registry as it was; the value given to add_component is dropped). The memory requests, destructor calls and capacities are predicted as well, also those of dropping the registry afterwards. Only remove_entity, and in release builds get_components and get_components_mut with an invalid tuple type, can be undefined behaviour.", "quantifier": "all universes of component types without hash collisions, debug and release builds, both byte orders, all finite call sequences with calm destructors and at most 8388608 entities per archetype", "why_tests_cant": "undefined behaviour is not observable by tests; unbounded mixtures of valid and invalid calls after caught panics", "anchors": ["src/registry/registry.rs: every pub fn", "src/archetype/data_access.rs: swap_remove_unchecked, read_components_exact_unchecked", "src/descriptors/archetype_descriptor.rs: add_component, remove_component", "src/descriptors/component_group_descriptor.rs"]}
{"id": "C58", "title": "Only collisions between archetypes in use matter, and some collisions are unavoidable", "statement": "A program whose own calls never look up two component sets of the same size under the same archetype id behaves as the reference implementation says (outputs, memory requests, destructor calls, panics, undefined behaviour), at the level of objects and of bytes, whatever the hashes of all other component sets are. No condition on all component sets could replace this one: over any 39 or more component types with distinct 16-bit ids there are two valid tuple types of 14 components with the same archetype id, and of two entities created with them one after the other, in any reachable state, has_component gives the same answer for a component that only one of them was given.", "quantifier": "all sets of component types (sorted by distinct ids), all programs over them, debug and release builds, both byte orders; for the collisions all reachable registries", "why_tests_cant": "the colliding sets depend on the ids, there are C(39,14) = 15084504396 candidates, and programs are unbounded", "anchors": ["src/archetype_registry/mod.rs: find_or_create_archetype", "src/descriptors/component_group_descriptor.rs: archetype id", "src/descriptors/archetype_descriptor.rs: add_component, remove_component", "src/fnv1a.rs"]}
{"id": "C59", "title": "Any client code through mutable references acts as on a plain list of values", "statement": "The references handed out by the mutable iterators (matching, filtered, exact, with and without handles), by get_components_mut and by get_component_mut each belong to one entity and component, no two to the same one, and hold the value the immutable accessor shows. Whatever a client does with all of them at once - look at and replace values through any of them, in any order, as often as it likes, depending on everything seen so far (adding one column to another, swapping, sorting) - it sees what it would see in a plain list of these values; afterwards exactly these components have the values of that list; nothing is lost or duplicated; and the registry, down to the bytes of its memory, is in the state that the corresponding get_component_mut calls lead to, so that every other property continues to hold.", "quantifier": "all reachable registries and programs within the contract, all component tuples, all terminating well-typed client code, debug and release builds, both byte orders", "why_tests_cant": "client code is an arbitrary interactive computation over arbitrarily many aliases into shared storage", "anchors": ["src/registry/registry.rs: get_component_mut, get_components_mut, iter_components_matching_mut, iter_entity_components_matching_mut, iter_components_exact_mut, iter_filtered_components_matching_mut", "src/archetype/data_access.rs: get_fuzzy_slices_unchecked_mut, get_slices_unchecked_exact_mut, get_component_unchecked_mut"]}
{"id": "C60", "title": "An archetype registry on its own is a list of tables with keys", "statement": "A program that owns an ArchetypeRegistry and uses its archetypes as documented sees a plain list of tables: find_archetype, find_or_create_archetype and the variants adding or removing a component lead to the one table with that archetype id and number of components (making it, with room for 128 rows, if there is none and fewer than 65534 exist); indexing panics exactly outside the list; the eight iterators yield the tables that have the components, by number of components and then by id, and refuse tuples with repeated components; writing through what they yield changes exactly those elements; every method of the archetypes reached does what it does to the table; memory requests and destructor calls are those of the tables; no two tables have the same key, whatever the hashes; and dropping the registry drops every value once. Refuted: that safe code cannot break this - exchanging the two archetypes that deriving one returns makes iterations miss entities.", "quantifier": "all programs of calls on the registry and its archetypes, all component types, all closures, debug and release builds, both byte orders", "why_tests_cant": "programs, numbers of archetypes and closures are unbounded; no assumption about hash collisions", "anchors": ["src/archetype_registry/mod.rs", "src/archetype_registry/iterators/*", "src/archetype/data_access.rs", "src/descriptors/archetype_descriptor.rs: add_component, remove_component"]}
{"id": "C61", "title": "Advancing a mutable iterator while using the references it has already handed out", "statement": "A client that makes one of the four mutable component iterators and then calls next, looks at values and replaces them through any reference received so far, in any order and depending on everything seen, receives exactly the items that the immutable iteration showed when the iterator was made, in that order and with the handles (or slice lengths) shown then, whatever it wrote in between; it may stop at any point; the end is reported for ever once reached; every value it sees is as in a plain list of values, including items handed out after a replacement elsewhere; and afterwards exactly the replaced components have new values, nothing is lost or duplicated, and the registry, down to the bytes of its memory, is where the same replacements by get_component_mut lead.", "quantifier": "all reachable registries and programs within the contract, all component tuples, all filter closures that depend on the archetype's id and components, all terminating well-typed client code, debug and release builds, both byte orders", "why_tests_cant": "client code is an arbitrary interactive computation that interleaves iterator state with writes through arbitrarily many aliases; numbers of archetypes and rows are unbounded", "anchors": ["src/archetype_registry/iterators/matching_iter_mut.rs", "src/archetype_registry/iterators/filter_matching_iter_mut.rs", "src/archetype_registry/iterators/archetype_iter_mut.rs", "src/archetype_registry/iterators/filter_archetype_iter_mut.rs", "src/registry/registry.rs: iter_components_matching_mut, iter_entity_components_matching_mut, iter_filtered_components_matching_mut, iter_filtered_entity_components_matching_mut"]}
{"id": "C62", "title": "derive(Component) tells different types apart", "statement": "Two different types that use #[derive(Component)] have different component ids, so that no entity with the one seems to have the other.", "quantifier": "all Rust types (module path, identifier, generic arguments), both byte orders", "why_tests_cant": "the macro is applied to arbitrarily many types, generic ones have arbitrarily many instances, and the consequences range over all reachable registries", "anchors": ["shard_ecs_derive/src/lib.rs:9-13", "src/descriptors/component.rs:13-15"]}
{"id": "C63", "title": "Filter closures that have a state or panic", "statement": "Whatever a filter closure remembers between its calls and whether or not it panics: the four filtered iterators ask it about the archetypes that have the components, in the order of the unfiltered iteration, each at most once ever and only as far as needed to find the next item; they hand out exactly the archetypes that it accepts; after a caught panic the iterator goes on with the archetype after the one in question; the end is reported for ever without asking again; no component is handed out twice; and client code that uses the references received, also after a panic, acts as on plain lists of values, with the registry where the same replacements by get_component_mut lead.", "quantifier": "all reachable registries and programs within the contract, all component tuples, all closures as functions of the descriptor and a state of any type, with panics, all terminating well-typed client code, debug and release builds, both byte orders", "why_tests_cant": "closures and client code are arbitrary computations; a panic can come at any call", "anchors": ["src/archetype_registry/iterators/filter_archetype_iter.rs:38-66", "src/archetype_registry/iterators/filter_archetype_iter_mut.rs:39-70", "src/archetype_registry/iterators/filter_matching_iter.rs", "src/archetype_registry/iterators/filter_matching_iter_mut.rs"]}
{"id": "C64", "title": "An EntityRegistry used directly is a table of slots with a free stack", "statement": "Any program over the public API of EntityRegistry (create_entity, destroy_entity, entity_entry, entity_entry_mut with any use of the entry's setters, iter, can_register_new_entity), from a default registry and with arbitrary handles, neither panics nor has undefined behaviour, and every answer is the one of a plain table: slots with a version and an optional (row, archetype index), and a stack of the slots that were destroyed; versions count modulo 256, creating fails exactly from 16777215 slots on. A client that sets the archetype index of a live entry to 65535 loses the slot: no later call issues it or lists it.", "quantifier": "all programs of any length, all 32-bit handles (also forged and stale ones), all values that the types of the arguments allow, both byte orders", "why_tests_cant": "unbounded programs, 2^32 handles, 2^48 entries; tests of the registry use three calls", "anchors": ["src/entity_registry/mod.rs:29-101", "src/entity_registry/entry.rs:30-64", "src/entity_registry/iterator.rs:11-36"]}
{"id": "C65", "title": "Every program, without a bound on the number of entities", "statement": "Any sequence of calls of the registry over component types with different ids behaves, call by call, as a short reference program says: the same outputs, panics where it panics, undefined behaviour exactly where it says so. This includes programs that fill an archetype: one with 8388608 entities cannot take another one, and create_entity (release build), add_component and remove_component that put one more into it are undefined. In a debug build such a create_entity panics; all calls up to it are as the reference program says, and afterwards reading a component of any entity of that archetype is undefined.", "quantifier": "all programs of any length that catch panics, all argument values of the types the compiler asks for, tuple types with repeated components included, debug and release builds, both byte orders", "why_tests_cant": "programs of more than 8388608 calls over all component types and values; undefined behaviour need not show in a test", "anchors": ["src/registry/registry.rs:21-345", "src/archetype/data_access.rs:209-242", "src/archetype/data_access.rs:420-541"]}
{"id": "C66", "title": "Any program, whatever the hashes", "statement": "Any sequence of calls of the registry over component types with different ids behaves, call by call, as a short reference program says, up to the first call that looks up the archetype of one component set and finds that of another one (same archetype id, same number of components). Nothing is assumed about the hashes. That call does the following. create_entity returns a handle of an entity that has the components of the archetype found (if these have the sizes of the given ones); a value can be read where the component stands at its own position, and reading another component of that archetype - there always is one - is undefined. Iteration over exactly these components is undefined if the archetype found has entities, and yields empty columns otherwise. add_component panics if the archetype found does not have the component; otherwise, and in remove_component, the entity has the components found, with the values it had for them, and its other components are lost; a removed component that the archetype found has is returned and stays in the registry as well.", "quantifier": "all programs of any length that catch panics, all argument values of the types the compiler asks for, all component ids, debug and release builds, both byte orders", "why_tests_cant": "a collision of 32-bit hashes does not show up unless the component ids are chosen for it; the effects are silent or undefined behaviour", "anchors": ["src/archetype_registry/mod.rs:72-230", "src/registry/registry.rs:21-345", "src/registry/registry.rs:465-520", "src/archetype/data_access.rs:209-242", "src/archetype/data_access.rs:515-541"]}
{"id": "C67", "title": "Every program, misuse included, over bytes", "statement": "Seen as pointers, offsets and bytes of one heap, any sequence of calls of the registry behaves, call by call, as a short reference program says: it returns, it panics (adding a fourteenth component, removing one of fourteen, tuple types that repeat a component), or it is undefined behaviour, at exactly the calls the reference program names; no other access is out of bounds, misaligned, overlapping, of freed memory or of the wrong type. Memory requests and destructor calls are those of the reference program, and dropping the registry after any number of panics leaves no block allocated. This also holds for programs that fill an archetype to its limit (the next entity writes through a null pointer) and, up to the first call that finds the archetype of other components, without any assumption about the hashes.", "quantifier": "all programs of any length that catch panics, all argument values of the types the compiler asks for, all placements of blocks by the allocator, debug and release builds, both byte orders", "why_tests_cant": "the bytes touched by an unsafe access cannot be observed by a test, and a call that is undefined may appear to work; the space of programs with caught panics is unbounded", "anchors": ["src/archetype/mod.rs:40-89", "src/archetype/data_access.rs:17-541", "src/registry/registry.rs:21-520", "src/archetype_registry/mod.rs:72-230"]}
{"id": "C68", "title": "Sizes of memory requests fit the target", "statement": "On a target with 64-bit pointers the sizes in bytes that the storage computes (element size times capacity, as usize) never overflow and never exceed isize::MAX, so every call does what it does with unbounded integers; with fewer bits, too, a program within the contract is never undefined because of a size.", "quantifier": "all pointer widths of at least 32 bits, all programs of any length, all component sizes and alignments, any allocator, debug and release builds, both byte orders", "why_tests_cant": "the sizes concerned are gigabytes, tests run on one pointer width, and an oversized layout is undefined behaviour that may go unnoticed", "anchors": ["src/archetype/mod.rs:40-89", "src/archetype/data_access.rs:407-512", "src/archetype_registry/mod.rs:72-230", "src/registry/registry.rs:21-39"]}
{"id": "C69", "title": "Descriptors used directly are sets of components", "statement": "Any sequence of calls on archetype descriptors (INVALID, new, from a component, from a group, add_component, add_component_from, remove_component, has_component, contains_subset, excludes_subset, is_valid, archetype_id, len, components) gives the answers that finite sets of components give; as_unsorted(k) of a group descriptor is the k-th component of the tuple; a descriptor for which is_valid holds has 1..14 components without duplicates.", "quantifier": "all programs of descriptor calls of any length, all component descriptors, both byte orders; all groups and all indices for as_unsorted", "why_tests_cant": "the project's tests follow one chain of three calls; as_unsorted is not called at all, and agrees with the statement on all tuples of at most two components", "anchors": ["src/descriptors/archetype_descriptor.rs:17-208", "src/descriptors/component_group_descriptor.rs:19-170", "src/descriptors/component_descriptor.rs:49-134"]}
{"id": "C70", "title": "A refusing allocator, down to bytes", "statement": "Whatever answers the allocator gives and wherever it places the blocks it grants, a program within the contract that catches the panics which left the registry as it was does the same over bytes as in the element-level registry (C46): no call does anything undefined, the same calls return the same or panic, and the same requests and destructor calls are made in the same order; dropping the registry then releases what it owns.  If a refused growth breaks an archetype, dropping the registry is undefined over bytes too.  At every moment the live blocks are, by size and alignment, those obtained and not given back.", "quantifier": "all sequences of allocator answers, all placements, all programs of calls within the contract (balance: all programs whatsoever), all component universes with alignments dividing sizes, both build modes and byte orders", "why_tests_cant": "the tests run with an allocator that never refuses; which of the requests inside one push or reserve is refused decides between a harmless panic, leaked blocks and an archetype whose drop is undefined", "anchors": ["src/archetype/mod.rs: with_capacity, drop", "src/archetype/data_access.rs: resize_if_necessary, resize_capacity, dealloc, drop_entities", "src/archetype_registry/mod.rs: find_or_create_archetype", "src/registry/registry.rs: create_entity, add_component, remove_component"]}
{"id": "C71", "title": "Threads may share out the references of one call", "statement": "If a client gives the references that one mutable iteration or tuple access handed out to any number of scoped threads, each reference to one thread or to all of them for looking only, then however the single bytes moved by the threads are interleaved: nothing undefined happens, no thread ever sees anything but what it would see running alone, every thread that gets enough turns finishes, each reference ends with the value its owner alone would have left, and the memory at the end is the very memory that a sequence of get_component_mut calls leads to.", "quantifier": "all programs within the contract before the call, all groups, all codes of all threads, all ways to share out the references, all schedules of single bytes; both build modes and byte orders, all placements of blocks", "why_tests_cant": "the project's tests start no threads, although Archetype is declared Send and Sync by unsafe impl; overlapping references would show only under particular interleavings", "anchors": ["src/archetype/mod.rs:20-21", "src/descriptors/component.rs:11", "src/registry/registry.rs:176-214", "src/registry/registry.rs:363-524", "src/archetype/data_access.rs: get_slices_mut, get_fuzzy_slices_mut"]}
{"id": "C72", "title": "Registries do not notice each other", "statement": "In a program with any number of registries that take their memory from one allocator, with calls on them in any order, registries swapped and dropped at any time: nothing undefined happens, every call returns what the calls on its own registry alone determine, it causes the memory requests and destructor calls it would cause if the registry were alone, in the same order, references into two registries never share a byte, and when all registries are dropped no memory is left.", "quantifier": "all programs within the contract over any number of registries, all interleavings of their calls, all placements of blocks; both build modes and byte orders", "why_tests_cant": "every test of the project uses a single registry; stray writes through stale pointers into another registry's blocks would need particular allocator behaviour to show", "anchors": ["src/registry/registry.rs:10-14", "src/entity_registry/mod.rs:15-18", "src/archetype_registry/mod.rs:40-44", "src/archetype/mod.rs:40-89"]}
{"id": "C73", "title": "Panicking destructors, down to bytes", "statement": "Dropping a registry panics exactly if a live component's destructor does. No archetype is skipped: each drops its values column by column until the first destructor that panics and gives its arrays back if none does; the only memory lost is that of the archetypes in which one panicked, and nothing undefined happens (if destructors of two archetypes panic, this holds until the process aborts at the second). Destroying an entity with such a component drops its values by component id up to the first panic; every handle stays as it was and every entity shows its components, except that the entity and the last one of its archetype show each other's; a later drop of the registry panics again and drops the values in the exchanged order.", "quantifier": "all programs within the contract, any values with panicking destructors; both build modes and byte orders, all placements of blocks", "why_tests_cant": "no test has a component whose destructor panics; what is dropped, given back and lost cannot be seen from the outside", "anchors": ["src/archetype/mod.rs:78-89", "src/archetype/data_access.rs:313-326", "src/archetype/data_access.rs:385-400", "src/descriptors/component_descriptor.rs:137-140", "src/registry/registry.rs:52-69"]}
{"id": "C74", "title": "Misusing one registry does not reach the others", "statement": "In a program with any number of registries in one heap that makes any calls at all, tuple types the library rejects and calls that panic included, drops registries that hold values whose destructors panic, and catches panics: every call returns, panics or is undefined exactly as the calls on its own registry determine; as long as none is undefined, every registry answers as if it were the only one and never shared a heap with misused ones; memory requests and destructor calls are as determined by the program; and when all registries are dropped, the only memory left are the arrays of archetypes abandoned because a destructor panicked while their registry was dropped.", "quantifier": "all programs over any number of registries, all interleavings of their calls, all placements of blocks; both build modes and byte orders", "why_tests_cant": "the project has no test with two registries or with a caught panic; that a panic in the middle of a call leaves the heap of others intact depends on every interleaving and placement", "anchors": ["src/registry/registry.rs:10-14", "src/registry/registry.rs:16-524", "src/archetype/mod.rs:40-89"]}
{"id": "C75", "title": "Growing costs a constant number of bytes per call", "statement": "In a program of n calls within the contract, the arrays that reallocations may have to copy have at most 2*w*n bytes in total, where w is the size of a handle and one value of every component type of the program. Exactly: the bytes newly obtained are 128 rows per archetype, and together with the bytes copied they are the bytes of the arrays held at the end. The memory held at the end is at most the first 128 rows of every archetype plus twice what its largest population needs. The bound and the equation hold for the registry and for its arrays in a heap of bytes.", "quantifier": "all programs of any length within the contract, all sets of component types, all placements of blocks; both build modes and byte orders", "why_tests_cant": "no test measures memory traffic; a growth step that is right but not proportional, or that grows an array more often than needed, passes every functional test", "anchors": ["src/archetype/data_access.rs:412-456", "src/archetype/data_access.rs:502-512", "src/constants.rs:33"]}
