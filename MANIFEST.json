{
 "claims": [
  {
   "property": "C01",
   "status": "proved",
   "theorems": [
    "C01_handle_packing"
   ],
   "note": "all indices below 2^24, versions and 32-bit raw values"
  },
  {
   "property": "C02",
   "status": "proved",
   "theorems": [
    "C02_index_in_archetype"
   ],
   "note": ""
  },
  {
   "property": "C03",
   "status": "proved",
   "theorems": [
    "C03_entry_fields"
   ],
   "note": "both endiannesses"
  },
  {
   "property": "C04",
   "status": "proved",
   "theorems": [
    "C04_fnv1a"
   ],
   "note": "against a fold-based FNV-1a reference"
  },
  {
   "property": "C05",
   "status": "proved",
   "theorems": [
    "C05_one_byte"
   ],
   "note": ""
  },
  {
   "property": "C06",
   "status": "proved",
   "theorems": [
    "C06_group_validity"
   ],
   "note": ""
  },
  {
   "property": "C07",
   "status": "proved",
   "theorems": [
    "C07_tuple_order"
   ],
   "note": ""
  },
  {
   "property": "C08",
   "status": "proved",
   "theorems": [
    "C08_sort_mappings"
   ],
   "note": ""
  },
  {
   "property": "C09",
   "status": "proved",
   "theorems": [
    "C09_subset_tests",
    "C09_wf_closed"
   ],
   "note": "for every well-formed descriptor; every descriptor the crate builds is well-formed"
  },
  {
   "property": "C10",
   "status": "partial",
   "theorems": [
    "C10_add_component_partial",
    "C10_add_component_refuted"
   ],
   "note": "the full claim is false: with 13 components the call always panics; every other case is proved"
  },
  {
   "property": "C11",
   "status": "partial",
   "theorems": [
    "C11_remove_component_partial",
    "C11_remove_component_refuted"
   ],
   "note": "the full claim is false: with 14 components the call always panics; every other case is proved"
  },
  {
   "property": "C12",
   "status": "partial",
   "theorems": [
    "C12_one_identity_refuted",
    "C12_one_identity_partial"
   ],
   "note": "false: add/remove hash differently from tuple types; agreement within each kind is proved"
  },
  {
   "property": "C13",
   "status": "partial",
   "theorems": [
    "C13_distinct_archetypes_refuted",
    "C13_uncreatable_pair_refuted",
    "C13_distinct_archetypes_partial",
    "C13_up_to_hash"
   ],
   "note": "false: archetype hash collisions exist. Proved: over a universe whose archetypes in use do not collide entities share an archetype iff same components obtained the same way; for every client, archetypes are shared iff the hashes and lengths agree"
  },
  {
   "property": "C14",
   "status": "partial",
   "theorems": [
    "C14_names_never_alias_refuted",
    "C14_aliasing_partial",
    "C14_pigeonhole"
   ],
   "note": "false: component names with equal 16-bit ids exist, and must among any 65537 names. Proved: aliasing happens only through equal ids"
  },
  {
   "property": "C15",
   "status": "proved",
   "theorems": [
    "C15_binary_search"
   ],
   "note": ""
  },
  {
   "property": "C16",
   "status": "proved",
   "theorems": [
    "C16_created_fresh",
    "C16_live_handles_distinct",
    "C16_registry_create",
    "C16_registry_distinct"
   ],
   "note": "For the entity table and, through every public call, for any client program (panics caught, misuse included)."
  },
  {
   "property": "C17",
   "status": "proved",
   "theorems": [
    "C17_invalid_never_issued",
    "C17_invalid_never_accepted",
    "C17_registry_invalid"
   ],
   "note": "Entity table and every public call."
  },
  {
   "property": "C18",
   "status": "proved",
   "theorems": [
    "C18_destroyed_dead",
    "C18_dead_until_reissued",
    "C18_dead_no_effect",
    "C18_registry_destroyed",
    "C18_registry_dead",
    "C18_registry_rejected"
   ],
   "note": "Entity table and any client program."
  },
  {
   "property": "C19",
   "status": "proved",
   "theorems": [
    "C19_stale_handles",
    "C19_registry_stale"
   ],
   "note": "Entity table and any client program; the example shows the bound is met."
  },
  {
   "property": "C20",
   "status": "proved",
   "theorems": [
    "C20_free_list_exact",
    "C20_create_reuses",
    "C20_destroy_then_create",
    "C20_table_is_peak",
    "C20_registry_table"
   ],
   "note": "Entity table histories; C20_registry_table shows every reachable registry contains such a table."
  },
  {
   "property": "C21",
   "status": "partial",
   "theorems": [
    "C21_capacity_partial",
    "C21_table_can_fill",
    "C21_destroying_makes_room_refuted"
   ],
   "note": "false: a table that was full once rejects creation although slots are free; proved: fails iff the table has 16777215 slots"
  },
  {
   "property": "C22",
   "status": "proved",
   "theorems": [
    "C22_iter_entities",
    "C22_fused"
   ],
   "note": ""
  },
  {
   "property": "C23",
   "status": "proved",
   "theorems": [
    "C23_create_entity"
   ],
   "note": "for every history within the contract (SpecWorld.contract); says exactly when creation succeeds"
  },
  {
   "property": "C24",
   "status": "proved",
   "theorems": [
    "C24_destroy_entity"
   ],
   "note": "for every history within the contract and every handle"
  },
  {
   "property": "C25",
   "status": "partial",
   "theorems": [
    "C25_exact_match_refuted",
    "C25_remove_entity_partial",
    "C25_any_tuple"
   ],
   "note": "the full claim is false: G is never compared with the entity. Proved when G names exactly the components of the entity, or the handle is dead; and for any other valid G: it returns an initial part of the components and leaks the rest, or is undefined (C25_any_tuple)"
  },
  {
   "property": "C26",
   "status": "partial",
   "theorems": [
    "C26_has_components_refuted",
    "C26_presence_partial",
    "C26_shows_current"
   ],
   "note": "false for tuples with a repeated type; proved for single components and for all valid tuples"
  },
  {
   "property": "C27",
   "status": "partial",
   "theorems": [
    "C27_get_components_refuted",
    "C27_get_components_partial"
   ],
   "note": "false for tuples with a repeated type; proved for all valid tuples"
  },
  {
   "property": "C28",
   "status": "proved",
   "theorems": [
    "C28_set_component",
    "C28_set_components",
    "C28_distinct_references"
   ],
   "note": ""
  },
  {
   "property": "C29",
   "status": "partial",
   "theorems": [
    "C29_add_fourteenth_refuted",
    "C29_add_component_partial",
    "C29_at_thirteen"
   ],
   "note": "false: 13 to 14 components panics, always, dropping the value and changing nothing (C29_at_thirteen); every other case proved"
  },
  {
   "property": "C30",
   "status": "partial",
   "theorems": [
    "C30_remove_from_fourteen_refuted",
    "C30_remove_component_partial",
    "C30_at_fourteen"
   ],
   "note": "false: 14 to 13 components panics, always, changing nothing (C30_at_fourteen); every other case proved"
  },
  {
   "property": "C31",
   "status": "proved",
   "theorems": [
    "C31_registry_is_a_map"
   ],
   "note": "every operation, every history within the contract"
  },
  {
   "property": "C32",
   "status": "proved",
   "theorems": [
    "C32_programs_return",
    "C32_no_ub_no_panic"
   ],
   "note": "the contract also excludes the cases refuted under C25, C29, C30, C41"
  },
  {
   "property": "C33",
   "status": "proved",
   "theorems": [
    "C33_ownership"
   ],
   "note": ""
  },
  {
   "property": "C34",
   "status": "proved",
   "theorems": [
    "C34_drop_registry",
    "C34_drop_registry_any"
   ],
   "note": "C34_drop_registry: no destructor panics; C34_drop_registry_any: any destructors."
  },
  {
   "property": "C35",
   "status": "proved",
   "theorems": [
    "C35_matching_iteration"
   ],
   "note": ""
  },
  {
   "property": "C36",
   "status": "proved",
   "theorems": [
    "C36_filtered_iteration"
   ],
   "note": ""
  },
  {
   "property": "C37",
   "status": "proved",
   "theorems": [
    "C37_matching_mut",
    "C37_filtered_mut"
   ],
   "note": ""
  },
  {
   "property": "C38",
   "status": "partial",
   "theorems": [
    "C38_exact_iteration_refuted",
    "C38_exact_iteration_partial",
    "C38_exact_mut_partial"
   ],
   "note": "completeness is false: entities reached by add/remove live in another archetype; the exact set visited is proved"
  },
  {
   "property": "C39",
   "status": "proved",
   "theorems": [
    "C39_archetype_iterators_fused",
    "C39_component_iterators_fused",
    "C22_fused"
   ],
   "note": "All iterator states, registries and filters."
  },
  {
   "property": "C40",
   "status": "proved",
   "theorems": [
    "C40_failed_calls"
   ],
   "note": ""
  },
  {
   "property": "C41",
   "status": "partial",
   "theorems": [
    "C41_capacity_partial",
    "C41_breaks_at_half",
    "C41_every_size_occurs",
    "C41_documented_capacity_refuted"
   ],
   "note": "The full claim is false: with 2^23 entities in an archetype one more creation frees the columns and writes through null (debug: panics). Proved for every size below 2^23; every size up to 2^23 is shown to occur."
  },
  {
   "property": "C42",
   "status": "proved",
   "theorems": [
    "C42_found_forever",
    "C42_unique",
    "C42_indices_stable",
    "C42_lookup",
    "C42_creation_fails",
    "C42_creation_result"
   ],
   "note": "For every registry reached by any client program."
  },
  {
   "property": "C43",
   "status": "partial",
   "theorems": [
    "C43_source_range_refuted",
    "C43_source_range_partial"
   ],
   "note": "False at index = number of archetypes (panics, refuted for every registry); every larger index is rejected."
  },
  {
   "property": "C44",
   "status": "proved",
   "theorems": [
    "C44_disjoint_mut"
   ],
   "note": ""
  },
  {
   "property": "C45",
   "status": "partial",
   "theorems": [
    "C45_panicking_destructor_refuted",
    "C45_destructor_panics_exactly"
   ],
   "note": "The claim is false (witness). From every reachable state the exact effect is proved: the dropped components, that the entity stays live with its components exchanged with those of the last entity of its archetype, that all others are untouched, and that a later drop of the registry panics and drops each value at most once more."
  },
  {
   "property": "C46",
   "status": "partial",
   "theorems": [
    "C46_allocation_failure_refuted",
    "C46_failures_exactly",
    "C46_untouched_registry",
    "C46_answers_do_not_matter"
   ],
   "note": "The property as stated is false (C46_allocation_failure_refuted). C46_failures_exactly describes every call within the contract from every state reached with an allocator that may refuse any request: no undefined behaviour; a panic means a request was refused, drops exactly the given values, and leaves the registry untouched or in one exactly described broken state (an archetype lost the block it could not grow; the registry can then not be dropped). C46_untouched_registry: while untouched, all entities keep their components, nothing is dropped twice or freed without having been allocated."
  },
  {
   "property": "C47",
   "status": "partial",
   "theorems": [
    "C47_zero_sized_refuted",
    "C47_never_stored",
    "C47_new_archetype_undefined"
   ],
   "note": "false: zero-size allocation. For every reachable registry: no zero-sized component is ever stored, and creating one in a new archetype is always undefined"
  },
  {
   "property": "C48",
   "status": "proved",
   "theorems": [
    "C48_any_call",
    "C48_call",
    "C48_histories",
    "C48_programs"
   ],
   "note": "Debug and release builds agree on every call that does not panic in debug; contract calls and whole histories and client programs agree. C48_contract_needed shows a call where the debug build panics and release goes on."
  },
  {
   "property": "C49",
   "status": "partial",
   "theorems": [
    "C49_same_results_refuted",
    "C49_programs_partial",
    "C49_clients_partial",
    "C49_clients_back_partial"
   ],
   "note": "False as stated: archetype ids are hashed from bytes in target order and archetypes are visited in id order, so the iteration order differs (C49_same_results_refuted). Proved for every program over a portable component universe (ids collide on neither target and coincide on both or neither): same results up to the order of visited archetypes, panic on both or neither, undefined behaviour on both or neither, same allocations and drops in the same order. Release builds; debug builds follow within the contract by C48."
  },
  {
   "property": "C50",
   "status": "partial",
   "theorems": [
    "C50_duplicate_ownership_refuted",
    "C50_rejected_partial",
    "C50_live_entity",
    "C50_remove_entity"
   ],
   "note": "false: has_components answers true, get_components panics or is undefined, remove_entity::<(A, A)> returns the same value twice. Proved: creation and every iteration reject (debug: matching iteration panics), and exactly what the other calls do"
  },
  {
   "property": "C51",
   "status": "partial",
   "theorems": [
    "C51_oversized_refuted",
    "C51_overaligned_refuted",
    "C51_size_limit_partial",
    "C51_descriptor_exact",
    "C51_new_archetype_undefined"
   ],
   "note": "false (the limit is only a documented precondition): a type of 65540 bytes is accepted and truncated to 4. Proved for every client: values are only returned, and add only succeeds, for types of 1 to 65535 bytes; multiples of 65536 are undefined"
  },
  {
   "property": "C52",
   "status": "proved",
   "theorems": [
    "C52_every_program",
    "C52_every_history"
   ],
   "note": "reference implementation in SpecRef.v; contract as in C23-C40"
  },
  {
   "property": "C53",
   "status": "proved",
   "theorems": [
    "C53_every_program",
    "C53_dropping"
   ],
   "note": "ByteModel.v/ByteReg.v; contract as in C52, and sizes that are multiples of alignments (always so in Rust)"
  },
  {
   "property": "C54",
   "status": "proved",
   "theorems": [
    "C54_matching",
    "C54_filtered",
    "C54_exact",
    "C54_tuple",
    "C54_single"
   ],
   "note": "sound_ref, exclusive and refs_ok are in SpecBytes.v"
  },
  {
   "property": "C55",
   "status": "proved",
   "theorems": [
    "C55_every_program",
    "C55_dropping",
    "C55_capacities",
    "C55_bytes",
    "C55_bytes_dropping"
   ],
   "note": "SpecEvents.v gives the log; contract as in C52 (for the byte level as in C53)"
  },
  {
   "property": "C56",
   "status": "proved",
   "theorems": [
    "C56_every_program",
    "C56_limit",
    "C56_unallocated"
   ],
   "note": "SpecRows.v gives the table and the requirements of each call (those in the doc comments, plus: swap_entities with two different rows, and room for the row); capacities 0 and above 16777215 are the subject of C56_unallocated"
  },
  {
   "property": "C57",
   "status": "proved",
   "theorems": [
    "C57_every_program",
    "C57_requests",
    "C57_dropping",
    "C57_undefined"
   ],
   "note": "SpecTotal.v gives the verdicts; remaining hypotheses (lawful): arguments of the types the compiler asks for, over one universe without hash collisions between archetypes of the given family (see C58), non-empty tuples, destructors that do not panic, at most 8388608 entities per archetype"
  },
  {
   "property": "C58",
   "status": "proved",
   "theorems": [
    "C58_every_program",
    "C58_bytes",
    "C58_any_program",
    "C58_collisions_unavoidable",
    "C58_confusion"
   ],
   "note": "SpecUsed.v lists the archetypes a program looks up; other hypotheses as in C52, C53, C55 and C57"
  },
  {
   "property": "C59",
   "status": "proved",
   "theorems": [
    "C59_matching",
    "C59_filtered",
    "C59_exact",
    "C59_tuple",
    "C59_single",
    "C59_bytes",
    "C59_bytes_filtered",
    "C59_bytes_exact",
    "C59_bytes_tuple",
    "C59_bytes_single"
   ],
   "note": "Client code is a decision tree over looks and replacements (CodeModel.v); the first five theorems are about elements, the other five about bytes. Hypotheses as in C52 and C53; exact iteration needs the archetype of the tuple to be one of those told apart (known)"
  },
  {
   "property": "C60",
   "status": "proved",
   "theorems": [
    "C60_every_program",
    "C60_swap_refuted"
   ],
   "note": "SpecAreg.v; archetype methods under the requirements of C56, and those for a whole tuple only on archetypes with the tuple's own id (derived archetypes have other ids, C12); allocations succeed; the archetypes a program looks up come from tuple types or are derived from existing ones; mem::swap of archetypes excluded (C60_swap_refuted)"
  },
  {
   "property": "C61",
   "status": "proved",
   "theorems": [
    "C61_matching",
    "C61_filtered",
    "C61_bytes",
    "C61_bytes_filtered"
   ],
   "note": "Client code is a decision tree over next, looks and replacements (LazyModel.v), typed without knowledge of the registry (SpecLazy.v). Hypotheses as in C52 and C53; filter closures are pure functions that respect equal ids and components"
  },
  {
   "property": "C62",
   "status": "partial",
   "theorems": [
    "C62_derived_types_differ_refuted",
    "C62_id_of_derived",
    "C62_homonyms",
    "C62_homonyms_together",
    "C62_different_names"
   ],
   "note": "False as stated: the macro uses the identifier alone, so Tag<u8> and Tag<u64>, or two structs of one name in different modules, share an id, and safe code then reads 8 bytes of a 1-byte column. Proved: what the id is, what every reachable registry does with two types of one id, and that different hashes of identifiers are enough for the hypotheses of the other theorems. The macro expansion is modelled as the function from a type to its component type; token parsing is not"
  },
  {
   "property": "C63",
   "status": "proved",
   "theorems": [
    "C63_filter_closures"
   ],
   "note": "Closures are functions from a descriptor and a state to an answer or a panic and a new state (SiftModel.v). The item constructors are those of C61. Over values; the bytes behind the references are treated in C61 for closures without state"
  },
  {
   "property": "C64",
   "status": "proved",
   "theorems": [
    "C64_direct_use",
    "C64_lost_slot"
   ],
   "note": "EntityClient.v models the client programs; the unsafe functions Entity::set_index, EntityEntry::invalidate and IndexInArchetype::new_unchecked are only covered within their stated value ranges"
  },
  {
   "property": "C65",
   "status": "proved",
   "theorems": [
    "C65_every_program",
    "C65_release",
    "C65_short",
    "C65_too_many",
    "C65_after_the_panic"
   ],
   "note": "C57 without its bound on how full archetypes get. In debug builds nothing is said about the calls after the wreck except that reading the archetype's components is undefined. Destructors that panic in destroy_entity stay excluded (see C45, C50)."
  },
  {
   "property": "C66",
   "status": "proved",
   "theorems": [
    "C66_any_program",
    "C66_no_clash",
    "C66_first_clash",
    "C66_create",
    "C66_create_undefined",
    "C66_exact",
    "C66_add",
    "C66_remove"
   ],
   "note": "The calls after the clash are described only as far as has_component and get_component of the entity concerned. For create_entity the statement asks that the components found have the sizes of the given ones (otherwise the model stops with undefined behaviour at the write itself). Components of the archetype found for which a moved entity has no value are left unspecified: their cells are uninitialised or hold a stale value. Destructors that panic in destroy_entity stay excluded (see C45, C50)."
  },
  {
   "property": "C67",
   "status": "proved",
   "theorems": [
    "C67_every_program",
    "C67_requests",
    "C67_dropping",
    "C67_any_program",
    "C67_any_dropping"
   ],
   "note": "C67_every_program, C67_requests and C67_dropping ask what C57 asks (typed arguments, ids without collisions among the archetypes used, at most 8388608 entities per archetype); C67_any_program and C67_any_dropping ask only typed arguments, and follow the program up to the first clash of archetype ids as C66 does. What happens at and after the clash is not described at byte level. After the panic of a debug build that fills an archetype (Wrecks) only the calls before are described. Destructors that panic stay excluded (see C45, C50)."
  },
  {
   "property": "C68",
   "status": "partial",
   "theorems": [
    "C68_64_bits",
    "C68_64_bits_programs",
    "C68_same_or_undefined",
    "C68_exact",
    "C68_contract",
    "C68_roomy",
    "C68_too_large",
    "C68_32_bits_refuted",
    "C68_wrap_refuted",
    "C68_no_wrap"
   ],
   "note": "The part about 64 bits holds for every client, with failing allocations and caught panics. The part about fewer bits is false (C68_32_bits_refuted: 32769 entities with a component of 65535 bytes need 4294901760 bytes). C68_exact and C68_contract say exactly which programs are concerned, C68_roomy gives a simple bound (at most 32768 entities per archetype). Archetype::with_capacity called directly can wrap around to a small allocation (C68_wrap_refuted). Sizes inside Vec are not modelled."
  },
  {
   "property": "C69",
   "status": "partial",
   "theorems": [
    "C69_programs",
    "C69_as_unsorted",
    "C69_as_unsorted_exact",
    "C69_as_unsorted_refuted",
    "C69_new_refuted"
   ],
   "note": "The part about programs holds (C69_programs predicts the panics at 13 and 14 components, too), given that ArchetypeDescriptor::new gets a sorted array: it checks nothing, so is_valid may hold for duplicates, for wrong orders and for lengths past the array (C69_new_refuted). as_unsorted looks up the sorted array with the mapping to tuple order, which is wrong for (B, C, A) (C69_as_unsorted_refuted); C69_as_unsorted says what it returns, C69_as_unsorted_exact for which tuples that is right."
  },
  {
   "property": "C70",
   "status": "proved",
   "theorems": [
    "C70_every_program",
    "C70_dropping",
    "C70_broken",
    "C70_balanced"
   ],
   "note": "C70_every_program: same results, panics, requests and destructor calls over bytes whatever the allocator answers; C70_dropping: dropping afterwards; C70_broken: a panic that does not leave the registry as it was makes its drop undefined; C70_balanced: the live blocks are those obtained and not given back, for any program."
  },
  {
   "property": "C71",
   "status": "proved",
   "theorems": [
    "C71_matching",
    "C71_filtered",
    "C71_exact",
    "C71_tuple"
   ],
   "note": "One theorem per way to obtain the references. C71_race_refuted shows that sharing out is necessary: two threads replacing the value of one reference may leave bytes that represent no value. Memory is sequentially consistent in the model; no two threads touch the same byte unless both only read, so weaker memory models do not matter."
  },
  {
   "property": "C72",
   "status": "proved",
   "theorems": [
    "C72_together",
    "C72_alone",
    "C72_alone_log",
    "C72_references"
   ],
   "note": "C72_together: any interleaving, with swaps and drops, down to bytes in one heap. C72_alone compares with a program in which the registry is the only one. C72_references covers every call that hands out &mut, whether or not the tuple type is valid."
  },
  {
   "property": "C73",
   "status": "proved",
   "theorems": [
    "C73_dropping",
    "C73_destroying"
   ],
   "note": "The byte-level counterpart of C45_destructor_panics_exactly and C34_drop_registry_any, with the exact log and the exact blocks that are lost. The drop glue of Vec (go on with the other elements, then resume the panic) is modelled by b_drop_archs; a second panic while unwinding, which would abort the process, is modelled as continuing."
  },
  {
   "property": "C74",
   "status": "proved",
   "theorems": [
    "C74_misused",
    "C74_alone"
   ],
   "note": "C67 and the dropping half of C73 for several registries in one heap. Excluded, as in C67: destroying an entity whose destructor panics (C73 has it for one registry)."
  },
  {
   "property": "C75",
   "status": "proved",
   "theorems": [
    "C75_registry",
    "C75_bytes",
    "C75_memory"
   ],
   "note": "Counts the old sizes of reallocated blocks, an upper bound on what an allocator copies; time is not modelled."
  }
 ]
}