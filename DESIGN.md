# Formal model of shard-ecs: design

The crate (`/repo/src`, `shard-ecs` 0.2.7) is modelled in Rocq/Coq 8.16.1 under
`rocq/theories`.  Properties are listed in `properties.jsonl`; which theorem
proves which property is in `MANIFEST.json`.

## Trusted base

- The Coq kernel (and `vm_compute`, used for concrete witnesses and examples).
- What `Print Assumptions` lists for each theorem (printed by the build for every
  theorem in a `Properties_*.v` file); the target is "Closed under the global
  context".  No axiom, `Variable`, `Hypothesis`, `Admitted` or module functor of
  our own is used.
- The hand-written translation of the Rust source into the `*Model.v` files
  (every definition cites file and lines), and the meaning given to outcomes.
- The statements: the `Spec*.v` files (see the list below) and the
  `Properties_*.v` files, which hold nothing but theorem statements, their
  `Print Assumptions` and the concrete `Example`s beside them.

## How the code is represented

- Outcomes (`Base.v`): `Ret a s` (returned), `Panic s` (panicked; `s` is the state
  left behind by unwinding), `UB` (undefined behaviour).  Read-only functions
  return `rd A`, so that they do not change state shows in the type.
- `cfg` selects debug/release (`dbg`: debug assertions and overflow checks) and
  the target's endianness (`big`).  Sizes in bytes are computed without bound, as on a
  64-bit target; `WidthModel` computes them with `w`-bit pointers, and C68 compares.
- Machine integers are `N` with explicit wrap; counters and rows are `nat` and are
  compared with the crate's large limits through `N.of_nat`.
- A component type is (Rust type identity, component id, size, align); a value is
  (Rust type, identity token, "destructor panics" flag).
- A memory block is its layout and a list of element cells (`None` =
  uninitialised).  Moving out or dropping leaves the bits in place.  Each block is
  owned by the archetype field that points to it.  Null / out-of-bounds /
  uninitialised / wrongly typed / wrongly strided accesses, overlapping
  `swap_nonoverlapping`, zero-size allocation, and (re/de)allocation with the
  wrong layout are `UB`.
- `env` holds the event trace (alloc/realloc/dealloc/drop) and an oracle deciding
  which allocations fail.
- Iterators are their `next` state machines, plus "driven to the end".  Filter
  closures are pure functions of the descriptor in `RegModel`, and functions of the
  descriptor and a state, which may panic, in `SiftModel`.
- `step c op` is the whole public `Registry` API, `run` a client program;
  `astep`/`arun` the public API of an `Archetype` used without a registry;
  `gstep`/`grun` the public API of an `ArchetypeRegistry` used without a registry.
- A second, lower model of the storage (`ByteModel.v`, `ByteReg.v`): one heap of
  bytes shared by all archetypes, a pointer is a block and a byte offset, blocks
  sit at addresses chosen by an arbitrary function `place`, and every access
  checks bounds, alignment, initialisation and which value the bytes belong to.
  `brun`/`bstep`/`b_drop_registry` are its `run`/`step`/`drop_registry`.  C53
  relates it to the reference implementation, C54 speaks about the locations of
  the references it hands out, C67 follows programs with misuse over it
  (`battempt` in `SpecBytes2.v`).

### Files

- Models: `Base Consts FnvModel EntityModel DescrModel ArchModel RegModel
  ByteModel ByteReg ArchClient AregClient DeriveModel EntityClient CodeModel LazyModel ThreadModel MultiModel SiftModel WidthModel`
  (`EntityClient` to `SiftModel` are mostly client code, not code of the library;
  `SiftModel` also has the filtered iterators again, for closures with a state;
  `WidthModel` has the functions that compute sizes again, for `w`-bit pointers;
  `DescrApiModel` has programs over descriptors).
- Specifications (no use of model helpers beyond the shared types of values,
  handles and operations): `SpecBase` (validity, universes, collisions),
  `SpecEntity` (handles, slots), `SpecTrace` (ownership and blocks read off a
  trace), `SpecWorld` (the abstract map and the contract), `SpecRef` (a reference
  implementation on plain lists), `SpecObs` (what a client can observe),
  `SpecClient` (interactive clients), `SpecPorts` (relating two targets),
  `SpecCrash` (what is left after a destructor panics), `SpecAlloc` (what is left
  after allocations fail), `SpecBytes` (valid and exclusive references),
  `SpecEvents` (the log of memory requests and destructor calls), `SpecRows` (an
  archetype as a table of rows), `SpecTotal` (what calls outside the contract do),
  `SpecBrim` (the same for archetypes that may be filled), `SpecClash` (the same without any assumption on hashes, up to the first clash of archetype ids), `SpecUsed` (the archetypes that a program looks up), `SpecCode` (client code on a
  plain list of values), `SpecLazy` (the same with an iterator), `SpecSift`
  (the same with a filter closure that has a state and may panic), `SpecSlots` (an
  entity registry as a table of slots), `SpecAreg` (an
  archetype registry as a list of tables), `SpecWidth` (sizes that a target can
  handle), `SpecDescr` (descriptors as finite sets of components), `SpecThreads`
  (threads that share out references), `SpecMulti`, `SpecMulti2` (several registries; misused), `SpecBomb` (what is dropped and what is lost when
  destructors panic), `SpecCost` (bytes obtained and copied).
- `Tests`: the project's own 24 unit tests and its example programs, transcribed
  and run on the model for all four kinds of build (validation of the model; no
  theorem depends on it).  All tests pass.  The example programs do less than their
  comments say: `Rotation` has the `NAME` of `Position` there.
- Statements: `Properties_*.v`.  Everything else is proofs and example data
  (`Instances`, `Instances2`).

### Modelled

`fnv1a.rs`; `entity_registry/*`; `descriptors/*`; `archetype/mod.rs`,
`archetype/data_access.rs`; `archetype_registry/*` with all iterators;
`registry/registry.rs`.  See the citations in the `*Model.v` files.

### Not modelled / simplified

- `Vec`'s own memory management (entity table, archetype list, sorted mappings)
  and `Vec` allocation failure (aborts the process).
- The element-level model treats a cell as a whole element and each block as
  owned by one archetype field.  The byte-level model removes both: what it still
  simplifies is that bytes are symbolic (`Poison`, "byte i of value v", "byte i of
  handle h"), block names are never reused and blocks never overlap (this is what
  an allocator promises), `realloc` always moves, and padding inside a component
  counts as part of its bytes.
- `shard_ecs_derive`: parsing of the token stream (its result, `NAME =
  stringify!(ident)`, is modelled in `DeriveModel`).
- Lifetimes, trait resolution and the checking of `Send`/`Sync` are the Rust
  compiler's job.  What `unsafe impl Send`/`Sync for Archetype` lets a client do
  with the references of one call is modelled in `ThreadModel` (bytes move one at a
  time, in any order; sequentially consistent memory, no atomics or locks).
- A second panic while unwinding (process abort).
- `Debug`/`Clone` derives, benches.
- User overrides of `Component::DESCRIPTOR` (documented as forbidden).

## Contract (hypotheses of the positive theorems)

- Component types come from a universe `U` whose ids are distinct, with sizes in
  1..65535 and power-of-two alignments below 65536 (`is_pow2` is checked by the
  model's allocator), and whose archetype hashes do not collide within one component count
  (`collision_free`; counterexamples show it is needed).  Only the archetypes of
  some family have to be told apart (`Fm : family`, the first argument of the
  theorems; `occurs x l` says that the family has an archetype with id `x` and
  component ids `l`), and the contract keeps the program to this family (`room`,
  `known`).  `every` is the family of all archetypes, `listed L` a list of them.
  C58 takes the archetypes that the program itself looks up, so that no condition
  on other hashes is left, and shows that over 39 or more components `every`
  always collides.
- Values have their declared type and destructors that do not panic (`calm`,
  asked of the entity's current components for `destroy_entity`).
- For C53/C54/C67: sizes are multiples of alignments (`laid_out`; Rust guarantees it).
- `remove_entity::<G>` is called with the entity's exact component set;
  `get_components(_mut)`/`has_components` with tuples of distinct ids;
  iteration with a valid `G`.
- Fewer than 2^23 entities in one archetype; allocations succeed.
- `add_component` not from 13 to 14 components, `remove_component` not from 14
  (both always panic; proved separately).

## Per property

Status "partial" always means: the claim as written in `properties.jsonl` is false
of the code, a `_refuted` theorem gives a concrete witness, and the other theorems
say exactly what does hold.

| id | model | file of the statement | how |
|----|-------|-----------------------|-----|
| C01-C03 | EntityModel | Handles | bit arithmetic, both endiannesses |
| C04, C05 | FnvModel | Handles | fold-based FNV-1a spec; odd prime invertible, xor injective |
| C06-C11, C15 | DescrModel | Descr | exchange sort, mapping loops, set semantics, search invariant; C10/C11 false at 13/14 components |
| C12-C14 | DescrModel, RegModel | Descr, Defects, Faults | false: tuple/derived id mismatch, FNV collisions; exact description given |
| C16-C22 | EntityModel, RegModel | Entity, Clients | free-list invariant, per-slot version counting; C21 false for a full table |
| C23-C30 | RegModel | Registry, Defects, Faults | representation invariant and per-operation refinement; C25, C26, C27, C29, C30 false (mismatched G; duplicate tuples; 13 and 14 components) |
| C31-C34, C40 | RegModel | Registry, Crash | induction over programs; conservation of values and blocks |
| C35-C39 | RegModel | Registry, Clients, Defects | iterator state machines visit each key once; C38 completeness false |
| C41 | ArchModel, RegModel | Capacity | up to 2^23, breaks exactly there |
| C42-C44 | RegModel | Clients, Defects | C43 false at index = len |
| C45 | RegModel | Crash, Defects | false; the state left behind described exactly |
| C46 | RegModel | Alloc, Defects | false; the state left behind described exactly |
| C47, C51 | RegModel | Sizes, Defects | false: zero-sized, oversized, over-aligned types |
| C48 | RegModel | Builds | debug and release agree |
| C49 | RegModel | Endian | same results up to a renaming of archetype ids; false in general |
| C50 | RegModel | Faults | invalid tuples rejected, except by `remove_entity` |
| C52 | RegModel | Ref | equality with the reference implementation of SpecRef |
| C53, C54 | ByteModel, ByteReg | Bytes | simulation between bytes and elements |
| C55 | RegModel, ByteReg | Events | what each call does to lengths, capacities and the trace, joined with C52 |
| C56 | ArchModel, ArchClient | Rows | the lemmas behind C23-C34 for any capacity (class `caps` in ArchOps.v), one per method |
| C57 | RegModel | Total | C52 and C55 for calls within the contract, Faults for the others |
| C58 | RegModel, ByteReg | Used | C52-C57 for the family of archetypes that the program looks up; counting sets of 14 components for the collisions |
| C59 | CodeModel, RegModel, ByteReg | Codes | every reference points at a known row and column (`points`); induction on the client code, one `OpSet` per replacement |
| C60 | RegModel, AregClient | Aregs | list of tables related to the list of archetypes; C56 for each method |
| C61 | LazyModel, RegModel, ByteReg | Lazy | as C59; writes keep the keys and descriptors, so the iterator still has the same archetypes before it |
| C62 | DeriveModel, RegModel | Derive | the id is the hash of the identifier; a column is found by id, its element type differs |
| C63 | SiftModel, RegModel | Sift | one call of `next` takes the offers up to the first accepted or panicking one; then as C61 |
| C64 | EntityClient, EntityModel | Slots | simulation between the table of entries with its chain of free slots and the table of slots with a stack; a lost slot stays lost by induction |
| C65 | RegModel | Brim | C57 for the calls that fit; `resize_capacity` deallocates at 8388608, so the column pointers are null when the entity is written |
| C66 | RegModel | Clash | before every call the family of archetypes is chosen anew: those that exist and the one the call looks up; at a clash the archetype search returns the wrong archetype, whose columns are written or read at the positions of the tuple |
| C67 | ByteModel, ByteReg | Bytes, Brim, Clash | the two registries answer alike (both return, both panic, both undefined) at every call; reading bytes as another type, and offsets from null, are undefined |
| C68 | WidthModel, RegModel | Width | the two programs do the same as long as every archetype's arrays are in reach; doubling what is in reach does not wrap around; C55 for the capacities |
| C69 | DescrApiModel | DescrApi | a descriptor's components as a finite map; C06-C11 for the single calls |
| C70 | ByteModel, ByteReg, ArchModel, RegModel | Bytes5-14, Torn, Alloc2-3 | the simulation of C53/C67 with a set of leaked blocks and with panics of the allocator; every operation on the heap conserves the balance of the events |
| C71 | ThreadModel, CodeModel, ByteReg | Threads, Threads2, Threads3 | each thread's own list of values; between two steps the bytes of a reference are those of the old value with a prefix of the new one, which only its owner can see; exclusivity from C54, the calls from C59 |
| C72 | MultiModel, ByteReg | Bytes5-12, Multi, Multi2, Multi3 | C53 for one registry while the blocks of all others are put aside and keep their contents (`bl_kept`); the books of C52 and C55 per registry |
| C73 | ByteModel, ByteReg | Bytes15, Bytes16, Bytes17, Crash | dropping at byte level is a list of values, cut at the first that panics; an archetype either keeps all its blocks or gives all of them back; the rest by the simulation of C53 |
| C74 | MultiModel, ByteReg | Bytes9, Bytes16, Bytes17, Total, Multi, Multi4 | C67 and C73 for one registry while the blocks of all others are put aside, as in C72, together with the blocks lost so far; Bytes9 and Bytes16 are stated for any such blocks |
| C75 | RegModel, ByteReg | Events2, Events3, Cost | the log of C55: each step obtains and doubles exactly what the sheets say; the sum of the peak lengths grows by at most one per call; capacities below twice the peak (C55) |

## Testing the theorems

`seeded/LOG.jsonl` records wrong programs.  For each, one definition of a model is
edited in a scratch copy and everything is rebuilt with `make -k`.  `lemmas_failed`
lists the first lemma the build stops at in each file that no longer compiles;
`theorems_failed` lists the theorems of the manifest whose proofs depend on one of
those lemmas (computed from the `.glob` files).
