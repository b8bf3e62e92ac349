# Formal model of LibFlatArray: design

The model is a hand translation of the C++ headers in `/repo/include/libflatarray`
into Gallina (Rocq/Coq 8.16.1). Nothing is compiled or run from `/repo`; each
definition carries a comment with the file and lines it was read from, and says
where it simplifies.

## Trusted base

* Coq's kernel (and `vm_compute` for closed examples and refutation witnesses).
* What `Print Assumptions` lists for each theorem. Every theorem in the
  `Props*.v` files is followed by `Print Assumptions`; expected output is
  "Closed under the global context" everywhere. No axioms are added.
* The faithfulness of the hand translation, i.e. the modelling decisions below.

## Modelling decisions

* **Values.** A byte of storage is `memval` (`None` = indeterminate, `Some b`).
  A member element of size `s` is the list of its `s` bytes (its object
  representation). For class-type members the bytes are an opaque token for the
  object's value; copying such an object copies the token. User-defined copy
  constructors/assignments that throw or do something else are not modelled.
* **Memory.** A heap of blocks; each block has a size, bytes, and, for class-type
  elements, a "lives here" flag per start address. Every access is bounds checked;
  out of bounds, use after free, assigning to / reading / destroying a dead object,
  constructing over a live object and releasing storage that still contains live
  objects are distinct *fault* outcomes, never silently ignored.
  Strict aliasing is not modelled. Alignment is treated by separate theorems.
* **Outcome.** `Ok` / `Throw exn` (with the state at the throw) / `Fault`.
* **Integers.** `long`/`size_t` are unbounded `Z` in the container models; the
  64-bit wrap-around computation is modelled separately and shown to agree below
  2^63 (C08). Overflow-relevant code (allocator sizes, array load offsets, vector
  growth `count*1.2` in double precision) is modelled with explicit wrap/rounding.
* **Registration.** A cell type is the list of its member descriptors (size,
  scalar or array arity, class-type or primitive, default bytes), which is what
  `LIBFLATARRAY_REGISTER_SOA` gets. The macro expansion itself is modelled
  separately (C54, C63–C66).
* **Loops.** Bulk functions are modelled as the list of elementary element
  operations (construct / destroy / assign value / copy) that the loops perform,
  in program order, interpreted over the memory. This is also what allows to state
  schedule-independence for the CUDA kernels.
* **SIMD intrinsics.** Given by their documented effect on lanes. Approximate
  instructions are uninterpreted functions. Memory seen by a member function is
  three regions (data, offsets, ptr); each access is recorded.
* `std::copy` is modelled as ascending element-wise assignment.
* `std::allocator`, `cudaMalloc`: return a fresh block (oracle). Allocation failure and
  throwing members are modelled in `GridThrow.v` (soa_grid, C86; soa_vector, C87), `BufferThrow.v` (load and save of soa_grid, C89), `GridThrowRun.v` (programs on soa_grids, C90), `VectorThrowRun.v` (programs on soa_vectors, C91) and `ArrayThrow.v` (soa_array, C88) only;
  everywhere else allocation succeeds and user code does not throw.

## Not modelled

Compile-time overload resolution (except where a property is about it, C31),
strict aliasing, exceptions thrown by user types except in soa_grid (C86, C89, C90), soa_vector (C87, C91) and soa_array (C88), real GPU memory ordering (threads
interleave at element-operation granularity), `testbed/` apart from C69–C72 (GPU benchmark, date and host name calls), the examples other than the Jacobi and Gauss stencils (C74), the SPH kernels (C75, C76) the lattice Boltzmann kernels with their benchmark (C77–C80) and the species of the performance tests (C81–C85), the CMake
build, MSVC-only branches.

## Files (`rocq/theories`)

| file | content |
|---|---|
| `Layout.v` | members, offsets, indices, addresses (C01–C09) |
| `Sizes.v` | size policies and dispatch (C10–C13) |
| `Mem.v` | memory, element operations and their interpreter |
| `Accessor.v` | accessor bulk operations as element-operation lists |
| `Grid.v` | soa_grid (C14–C27) |
| `Array.v` | soa_array (C28–C33) |
| `Vector.v` | soa_vector (C34–C40) |
| `Alloc.v` | aligned_allocator (C41–C43) |
| `Peeler.v` | loop peeler (C44) |
| `Cuda.v`, `CudaArray.v`, `SpecCudaArray.v` | launch configuration, kernels, cuda_array (C45–C48) |
| `ShortVecLang.v`, `ShortVecClass.v`, `ShortVecApi.v` | language of the short_vec bodies, semantics of the intrinsics, member and free functions |
| `ShortVecScalar.v`, `…Sse`, `…Avx`, `…Avx512`, `…Neon`, `…Mic`, `…Qpx` | the 86 classes, transliterated line by line |
| `SpecShortVec.v` | what the classes should do, on lanes |
| `ShortVecSym.v`, `ShortVecNat.v`, `ShortVecLift.v`, `ShortVecProofs.v` | symbolic run, naturality, lifting, checks |
| `ShortVecBits.v` | bit pattern / IEEE 754 instance for examples and witnesses |
| `Preproc.v`, `PreprocText.v`, `PreprocLib.v` | a macro preprocessor; the #define lines of the library, verbatim (C54) |
| `SpecPreproc.v` | what the list macros should yield |
| `PreprocAbs.v`, `PreprocProofs.v`, `PreprocForEach.v` | expansion with placeholders, the list macros, FOR_EACH by induction |
| `SpecRegister.v` | the text a registration should expand to, written by hand; values of constant expressions (C63-C65) |
| `RegisterProofs.v`, `RegisterText.v`, `RegisterValues.v`, `PropsRegister.v` | expansion of LIBFLATARRAY_REGISTER_SOA, its expressions and their values |
| `SpecBulk.v`, `BulkProofs.v`, `BulkSteps.v`, `BulkUnique.v`, `BulkAll.v`, `PropsBulk.v` | interpreter of the statements in the generated bulk functions; what they do (C73) |
| `SpecSizes.v` | the text of the size selection functions, written by hand, and an interpreter of its statements (C66) |
| `SizesText.v`, `SizesRun.v`, `PropsSizesText.v` | expansion of LIBFLATARRAY_CUSTOM_SIZES and variants, running the text, agreement with `Sizes.v` |
| `AccessVars.v`, `SpecAccessVars.v`, `AccessVarsProofs.v` | accessor objects and programs over them (C67, C68) |
| `Testbed.v`, `SpecTestbed.v`, `TestbedProofs.v` | benchmark support (C69–C72) |
| `Stencil.v`, `SpecStencil.v`, `StencilProofs.v` | the Jacobi and Gauss examples and their C99 versions (C74) |
| `Sph.v`, `SpecSph.v`, `SphProofs.v` | the kernels of the smoothed particle hydrodynamics example (C75, C76) |
| `Lbm.v`, `SpecLbm.v`, `LbmProofs.v`, `LbmExact.v` | the kernels and the benchmark of the lattice Boltzmann example (C77–C80) |
| `PerfJacobi.v`, `SpecPerfJacobi.v`, `PerfJacobiProofs.v` | the JacobiD3Q7 species of the performance tests (C81) |
| `PerfNBody.v`, `SpecPerfNBody.v`, `PerfNBodyProofs.v` | the NBody species (C82) |
| `PerfMover.v`, `SpecPerfMover.v`, `PropsPerfMover.v` | the ParticleMover species (C83) |
| `PerfPairs.v`, `PerfPairsFloat.v`, `SpecPerfPairs.v`, `FloatCount.v`, `PropsPerfPairs.v`, `PropsPerfPairsFloat.v` | the ParticleInteractor and ConditionalAny species (C84, C85) |
| `FloatInt.v`, `PropsFloatInt.v` | division and square roots of ints by way of IEEE 754 floats (C52, C60) |
| `GridThrow.v`, `SpecGridThrow.v`, `GridThrowProofs.v`, `VectorThrowProofs.v` | soa_grid and soa_vector when members or the allocator throw (C86, C87) |
| `ArrayThrow.v`, `SpecArrayThrow.v`, `ArrayThrowProofs.v` | soa_array when members throw (C88) |
| `BufferThrow.v`, `BufferThrowProofs.v` | load() and save() of soa_grid when members throw (C89) |
| `GridThrowRun.v`, `SpecGridThrowRun.v`, `GridThrowRunProofs.v` | programs on soa_grids that catch exceptions of members and go on (C90) |
| `VectorThrowRun.v`, `SpecVectorThrowRun.v`, `VectorThrowRunProofs.v` | programs on soa_vectors that catch exceptions of members and of the allocator and go on (C91) |
| `Props*.v` | the theorem statements, `exact` proofs and `Print Assumptions` |

## Plan per property

* C01 address function of the accessor macro over an arbitrary member list; disjointness of byte intervals by arithmetic on offsets (induction over the member list).
* C02 in-bounds by the same interval lemmas; tiling: every byte below byte_size has an owner (division with remainder inside the slot found by induction).
* C03 ring arithmetic on the address function.
* C04 injectivity/surjectivity of gen_index via division uniqueness.
* C05 accessor positions as (run-time index, compile-time INDEX); composition over a list of relative offsets.
* C06 each spelling modelled separately as written in the macros, then equated.
* C07 recursive overload chain modelled over the member list; induction.
* C08 second address function with `mod 2^64` at every operation, equal to the exact one below 2^63; refutation witness above.
* C09 divisibility arithmetic; witness of misalignment for an odd soa_array capacity.
* C10/C11/C12 if-chains as recursive functions over the size list; induction. C13 the default lists as data; arithmetic plus computation on the finite lists; refutation for (x,1,z>1).
* C14/C15 set/get through element-operation lists; frame lemma for disjoint writes.
* C16 construct functor; every in-range element written once.
* C17/C18 load/save element copies between two blocks; round trips over arbitrary buffers.
* C19/C20/C21/C22/C23/C27 state machine of soa_grid with explicit fields (indeterminate where the code leaves them so); positive theorems where true, `_refuted` theorems with computed witnesses where the code breaks the claim.
* C24/C25 refinement: invariant relating the concrete world (heap + grids) to a map of abstract grids; induction over operation lists; absence of faults includes lifetime faults.
* C26 dual callback as a function of both grids.
* C28–C33 as for the grid, with an abstract list and a capacity as the specification (`SpecArray.v`). C29: an overlapping self-load from below smears, a wrapping num+offset escapes the check. C30: elements > SIZE leaves the object. C31: const sources of the same type select the implicit bytewise copy. C33: a throwing converting constructor leaks. copy_in of an array onto itself passes identical ranges to std::copy (outside its contract) and is modelled as ascending element assignment; swap exchanges bytes, so class-type members are assumed bytewise relocatable (as the code does).
* C34–C40, C55, C56 soa_vector on top of the grid model (`SpecVector.v`: a list, a capacity and two flags, "extents known" and "storage constructed up to the extent"); refinement by an invariant over all lawful histories. `count*1.2` is computed with exact IEEE double rounding in Z and checked against Coq's SpecFloat on samples. Refuted parts: size() <= capacity() before the first reserve (C35), pushes onto class-type members between dim_x and extent_x (C36), growth of storages of 1–4 cells (C37), copies of vectors whose size exceeds dim_x and enlarging a copy (C38), reserve(n) below the size (C39), resize within the capacity (C40), storage with y/z extents above 1 (C55). `swap(soa_grid<T>&)` is a template for the default allocator only; other allocators would select std::swap and are not modelled.
* C41–C43 allocator as address arithmetic over an oracle chunk address and a word memory; history invariant.
* C44 the three loops unrolled by well-founded counters; exact list of processed indices; refutation for short ranges.
* C45–C47 (`Cuda.v`, `PropsCuda.v`) thread ids enumerated from the launch configuration with unsigned wrap-around and the device's launch limits; a schedule is any interleaving of the threads' element operations; permutation invariance of pairwise disjoint element operations. C45 is false for y > 262140 or z > 65535 (the launch is rejected and nobody looks at the error). C47 is false for n >= 2: the thread index is multiplied by the source stride 0, so all threads write the first cell; proved instead: broadcast equals set of one cell in every schedule. The racing stores of C47 write equal values and are modelled as whole-element stores.
* C48 (`CudaArray.v`, `SpecCudaArray.v`, `PropsCudaArray.v`) state machine over device blocks, refinement to lists by simulation; invariant: blocks and arrays correspond one to one. Not within the theorem because false: self-assignment (overlapping cudaMemcpy) and filling 2^31 elements or more (launch rejected), both with witness. cudaMalloc is assumed to succeed.
* C49–C52, C57–C60 short_vec. Every member function of every class (7 instruction sets, 86 classes counting the `#ifdef` variants SSE2/SSE4.1, AVX/AVX2, increased precision, LP64) is transliterated call by call into a small language (`ShortVecLang.v`); each intrinsic has a meaning on lists of lanes, polymorphic in the lane type and the scalar operations (`alg`). A body run on symbolic terms gives for each lane the term computed; the meaning is natural in the algebra (`call_meth_map`, induction over the language), so equality of the finitely many symbolic lanes (computed by the kernel) yields the theorem for every algebra, every value and every alignment. This is a proof for all inputs: lanes and alignments within a cache line are finitely many by the type, values are unrestricted. Masks need laws of bitwise operations (`bit_laws`), shown to hold for 32/64 bit patterns (`zalg_laws`). The vendor intrinsics' meaning is trusted (read from the vendors' documentation). Not modelled: that the QPX headers do not compile as written (array members in constructor initialiser lists).
* C53, C61, C62 selection (`ShortVecSelect.v`, `SpecSelect.v`, `PropsSelect.v`). A target is the set of macros a compiler predefines, its version macros and the widths of size_t and long. Modelled: the definition of LIBFLATARRAY_WIDEST_VECTOR_ISA, the guards of all 61 headers, ilp_to_arity, STREAMING_FLAG (with the wrap-around of size_t and the conversions to long and int), the type switches, the members of streaming_short_vec. Ill-formed programs (an identifier defined twice or not at all, a narrowing template argument) are None. The finite part (instruction set x element type x arity) is decided by computation and extended to all arities by induction over the header list; the arithmetic is proved for all ILP, sizes and estimates. Assumed: the x86 extension macros imply each other, the architectures exclude each other (`coherent`).
* C54 the four headers' 471 #define lines are kept as text (`PreprocText.v`), lexed and put into a macro table; `expand` is the standard's expansion algorithm with hide sets (Prosser). Expansion on placeholder tokens is related to expansion on arbitrary argument tokens (`sim_expand`), so that a computed expansion on placeholders is a theorem for all arguments; FOR_EACH by induction on the position. Assumed of the translation unit: it defines no macro named like a library macro or like a word these macros produce. Not modelled: #, variadic macros, comments, conditional directives, the white space between tokens.
* C63–C65 the registration macro on top of C54. The replacement list of LIBFLATARRAY_REGISTER_SOA_MAIN is cut into calls of FOR_EACH, calls of SIZE and other text; callbacks are expanded once on placeholders for scalar and once for array members. `SpecRegister.v` holds the expected text written by hand (templates with THE_CLASS, THE_TYPE, ...) and an evaluator for the integer expressions in it; C64 and C65 evaluate the very texts that C63 says are generated and equate them with `Layout.v`. Not modelled: the rest of C++ (overload resolution, statements); the statements of the bulk functions are fixed as text only, their effect is modelled in `Layout.v`/`Access.v` by hand. LIBFLATARRAY_INLINE is taken as on GCC.
* C66 the macros that list sizes, on top of C54. As in C63 the replacement lists are cut into calls of FOR_EACH and other text and compared with hand-written text (`SpecSizes.v`). The interpreter there executes `if`, `throw`, the computation of maxDim, calls of bind_size_* (arguments are passed by position to the named parameters) and the construction of the accessor with the functor call; an induction over the list gives the first-fit result for lists of any length. The results are proved equal to `choose`/`choose_const` of `Sizes.v`, so C10–C13 rest on the macro text; the lists in api_traits.hpp are lexed and compared with the default lists.
* C67, C68 accessor objects (`AccessVars.v`, `SpecAccessVars.v`, `PropsAccessVars.v`). A world has a store of `long` objects and variables; the light classes hold a location in the store, the others own one. Programs are lists of statements. The specification has no store: an accessor has its own position or follows a variable. Refinement by an invariant relating locations to owners (injective), one step per statement; the later theorems are inductions over the rest of the program on the specification side. Ill-formed and undefined are outcomes of their own. Assumed of C++: overload resolution between the implicit copy assignment and operator=(const CELL&) as noted at `assign`.
* C69–C72 the benchmark support (`Testbed.v`, `SpecTestbed.v`, `PropsTestbed.v`). Strings are lists of characters; accesses outside a string or vector are an outcome of their own; std::getline, istream::getline and fgets are modelled from the standard. The contents of /proc/cpuinfo, the output of likwid-topology, clock, host name and the printed performance are inputs. trim by following both loops along the decomposition blanks/text/blanks; tokenize by induction over the parts; the likwid loop with the invariant that no key occurs behind the first character of the read buffer.
* C73 the bodies of the generated bulk functions (`SpecBulk.v`, `PropsBulk.v`). An interpreter runs the token lists of C63: blocks, counting loops, pointer declarations, assignments, placement new, generic_destruct, std::copy and the copy helper classes (whose recursion is modelled from detail/soa_array_member_copy_helper.hpp); expressions and addresses are evaluated from their text as in C65. Every step of the interpreter may fail (text outside this language); the theorems show that it succeeds and yields the operation lists of `Accessor.v`. Name lookup is modelled (loop variables and parameters hide class-scope names). Integers are unbounded; types are given by size and class-ness. Proof: one lemma per function and kind of member over symbolic tokens, induction over the members, fuel monotonicity for uniqueness.
* C74 the stencil examples (`Stencil.v`, `SpecStencil.v`, `PropsStencil.v`). The functors run on the heap of `Mem.v` through the accessors of `Accessor.v`, with the member functions of the short_vec classes as transliterated for C49 (constructor from a pointer, +=, *=, *, store) over an arbitrary meaning of the operations on doubles (`alg`; only that sums and products of 8 byte values are 8 byte values), and the three loops of LIBFLATARRAY_LOOP_PEELER_TEMPLATE. A sweep is an additional operation in the grid histories of C24. Proof: loop invariant per row "cells below x done, all others as before", induction over rows in any order, simulation of the abstract grids; the C99 loops by induction over their ranges. OpenMP iterations run in any order but are not interleaved (they write disjoint rows and read only the other grid). Streaming vector types behave alike in the operations used (C62).
* C75/C76 the SPH example (`Sph.v`, `SpecSph.v`, `PropsSph.v`). Both kernels in C and in vector form over an arbitrary arithmetic (`arith`), the peeler's three loops, the interaction buffer with its capacity; members as separate arrays (C01), vector expressions lane by lane (C49, C57), float and double not distinguished, accesses outside the storage a failure. C75: simulation of the peeled loops by the C loops, with the invariant that buffer entries are pending updates of the C state. C76: each pair step adds to two entries; the nested sum is regrouped per particle over the ring axioms; cancellation by antisymmetry of the force. leapfrog and reflect_bc are the same functions in both programs and are a parameter.
* C77–C80 the lattice Boltzmann example (`Lbm.v`, `SpecLbm.v`, `PropsLbm.v`). The text of the collision (the same in the three files, transcribed once), the index computation of the three layouts, the accessor loop of `updateLine`, CUDA launches as interleavings of stores (C36 ff.), time steps with the swap. Arithmetic is arbitrary (`arith`, `option` for values from failed loads). C77: the stores of a launch are those of a box of cells, pairwise different, so every permutation has the same effect; in a field the text equals the BGK relaxation (`field`). C78: `field` on the 19 components. C79: the benchmark's launch overruns the interior, so its effect is stated by cell number; interior coverage and the printed rate refuted by witnesses. C80: product of the interval lists. Simplified: one double per address, `int` arithmetic unbounded except thread numbers and the byte count; synchronisation and timing not modelled.
* C81 (`PerfJacobi.v`, `SpecPerfJacobi.v`, `PropsPerfJacobi.v`). Each line update is the list of its stores (address, value or failure); memory holds one double per address; alignment of the SSE2 loads and stores is checked. A sweep is shown to store each covered cell once, so the grid afterwards is a function of the grid before (`sweep`); iteration with or without swap by induction. Not modelled: alignment of the vector accesses of Gold, timing.
* C82 (`PerfNBody.v`, `SpecPerfNBody.v`, `PropsPerfNBody.v`). Containers are one array per member with a capacity; accesses beyond are failures. One species step is a list of stores into the other container; lanes beyond n but below the capacity are computed and have no effect on the first n. The intrinsics' approximations are parameters assumed exact where used. Momentum: antisymmetry of the pair force and regrouping of the double sum.
* C83 (`PerfMover.v`, `SpecPerfMover.v`, `PropsPerfMover.v`). Lists with an iterator are split lists, splice moves one element; a soa_array is its cells and its size, cells behind the end keep their contents. Sorting is stated as a permutation of filters; the chunk loop of Gold by induction over chunks with the set of particles it moves as a parameter. Particles and comparisons are arbitrary.
* C84/C85 (`PerfPairs.v`, `SpecPerfPairs.v`, `PropsPerfPairs.v`). In-place updates are characterised by recurrences over the pairs (`collects`, `given`) by induction over the loops. ConditionalAny: lane sums as saturating counters, the peeled loop regrouped into a sum over all pairs; the runs by a histogram of coordinate differences, so that 64 million pairs need not be enumerated. `PerfPairsFloat.v` has the lanes as IEEE floats (SpecFloat); `C85_floats` proves it equal to the saturating counters, so the float limit 2^24 is derived, not assumed.
* C52/C60 in numbers (`FloatInt.v`, `PropsFloatInt.v`). The standard library's SpecFloat gives correctly rounded quotients and roots as integer computations; they are characterised by inequalities between integers (`nearest`, `sqrt_ok`), from which truncation and rounding of quotients of ints up to 2^24 follow. No real numbers, hence no axioms.
* C86 (`GridThrow.v`, `PropsGridThrow.v`). The functions of `Grid.v` are run under a schedule: how many more constructor and assignment calls of class-type members and how many more allocations succeed. With nothing scheduled they are proved equal to `Grid.v`. For assignments the invariant of the histories (`winv`) is re-established with cells that mix old and new elements, which by the simulation gives every later history. For constructions a prefix of the placement news is characterised by its set of living objects; destroying all of them meets a dead one.
* C87 (`GridThrow.v`, `PropsVectorThrow.v`). soa_vector under the same schedules. After each call the invariant of the vector histories (`svinv`) is re-established where the claim is true; the outcome of reserve is given for every schedule (returns, strong guarantee, leak, undefined), and the two windows in which it is undefined are proved undefined for every vector and every reserve that rounds up. Not scheduled: the construction of the temporary of pop_back and of the default value.
* C88 (`ArrayThrow.v`, `SpecArrayThrow.v`, `PropsArrayThrow.v`). Programs on soa_array in which each call carries its own schedule. The specification says for each call how many member calls it makes, whether it throws, and which lists may remain; the proof is a simulation of whole programs (invariant `vinv` of C28-C33 plus abandoned storage). soa_array allocates nothing, so only members throw. Not scheduled: members of the cell that pop_back returns and of cells that are read.
* C89 (`BufferThrow.v`, `PropsBufferThrow.v`). load() and save() of soa_grid run under a schedule that makes the k-th assignment of a class-type element throw, inside a client that packs a buffer, catches the exception, reads the buffer and takes it down. Proved: no undefined behaviour; when the exception occurs; what the grid's cells and the buffer's places hold afterwards (each element old or new); every further program sees that. By prefixes of the functors' operation lists (`partial_assign` for grids, `region_partial` for buffers).
* C90 (`GridThrowRun.v`, `SpecGridThrowRun.v`, `PropsGridThrowRun.v`). The histories of `SpecGrid.v` with a schedule per call. The specification gives for each call the number of cells it assigns, whether it throws, and which boxes of cells it may leave. Proved by simulation with the invariant of `GridSim.v`, which interrupted calls preserve. Calls of members made by get() and self-assignment are not scheduled.
* C91 (`VectorThrowRun.v`, `SpecVectorThrowRun.v`, `PropsVectorThrowRun.v`). The histories of `Vector.v` where calls may carry a schedule. The specification says which moments are harmless (not while new storage is filled with objects), when calls throw, and which lists they leave. Proved by simulation with the invariant of `VectorProofs.v`. For every call it is said exactly when it throws, in terms of the numbers of objects built, elements copied and members assigned. Exceptions in copies, assignments and soa_vector(n) are not scheduled here (C87 has what assignments leave); C91_push_refuted: an exception while push_back fills new storage is undefined behaviour.
