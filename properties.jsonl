{"id": "C01", "title": "Distinct elements never share storage", "statement": "For every registered cell type and every instantiated grid extent, the byte range an accessor hands out for one (cell, member, array slot) is disjoint from the byte range handed out for any other (cell, member, array slot). Writing one member of one cell through an accessor therefore cannot change any other member or any other cell.", "quantifier": "all member lists (any number, sizes, array arities), all extents, all pairs of distinct (index, member, array slot) with indices inside the extents", "why_tests_cant": "Tests register a handful of fixed cell types and extents; the claim is over all member lists, extents and pairs of locations.", "anchors": ["include/libflatarray/macros.hpp:soa_accessor", "include/libflatarray/detail/macros.hpp:LIBFLATARRAY_DECLARE_SOA_MEMBER", "include/libflatarray/detail/macros.hpp:LIBFLATARRAY_DEFINE_FIELD_OFFSET"]}
{"id": "C02", "title": "The buffer is exactly filled by the members", "statement": "All element ranges of all cells inside the extents lie inside the first byte_size() bytes of the buffer, and every byte of the buffer belongs to one element: no out-of-bounds access for in-range cells, no unused padding, and byte_size() = extent_x*extent_y*extent_z*aggregated_member_size.", "quantifier": "all member lists, all extents, all in-range cells, all byte positions below byte_size()", "why_tests_cant": "A test can only probe individual positions for fixed layouts.", "anchors": ["include/libflatarray/macros.hpp:aggregated_member_size", "include/libflatarray/detail/set_byte_size_functor.hpp:set_byte_size_functor", "include/libflatarray/detail/macros.hpp:LIBFLATARRAY_DECLARE_SOA_MEMBER"]}
{"id": "C03", "title": "Unit stride inside a member array", "statement": "For a fixed member (and array slot) the element of the cell at index i+k lies exactly k*sizeof(member) bytes after the element at index i, so pointer arithmetic on &accessor.member() walks along x, and consecutive array slots of an array member lie exactly DIM_X*DIM_Y*DIM_Z elements apart.", "quantifier": "all member lists, extents, indices and shifts k (including negative)", "why_tests_cant": "Infinite family of layouts and shifts.", "anchors": ["include/libflatarray/detail/macros.hpp:LIBFLATARRAY_DECLARE_SOA_MEMBER", "include/libflatarray/detail/soa_array_member_copy_helper.hpp:reference"]}
{"id": "C04", "title": "Logical coordinates map one-to-one to storage indices", "statement": "gen_index maps the box [0,DIM_X)x[0,DIM_Y)x[0,DIM_Z) one-to-one onto [0,DIM_PROD), with x running fastest, then y, then z; in particular two different coordinates in range never alias and every index is hit.", "quantifier": "all extents and all coordinates in range", "why_tests_cant": "Bijectivity over all extents is not testable by sampling.", "anchors": ["include/libflatarray/macros.hpp:gen_index"]}
{"id": "C05", "title": "Relative coordinates address exactly the named neighbour", "statement": "accessor[coord<X,Y,Z>()] used at the cell (x,y,z) refers to the same storage as an accessor positioned at (x+X, y+Y, z+Z), nested uses compose by adding the offsets, and moving the original accessor moves every neighbour accessor derived from it consistently.", "quantifier": "all extents, all base coordinates, all relative offsets (negative too), any nesting depth", "why_tests_cant": "Offsets are template parameters; tests instantiate a few.", "anchors": ["include/libflatarray/macros.hpp:operator[]", "include/libflatarray/detail/macros.hpp:LIBFLATARRAY_INDEX", "include/libflatarray/coord.hpp:coord"]}
{"id": "C06", "title": "All spellings of a member access agree", "statement": "For every member, member<k>(), member()[k], access_member<T, MEMBER_INDEX>() and access_member(sizeof(T), member_ptr_to_offset()(...)) evaluated on the same accessor return the same address (for scalar members k = 0), for const, non-const and light accessors alike.", "quantifier": "all member lists, members, array slots, extents, indices", "why_tests_cant": "Tests compare values for a few registered types only.", "anchors": ["include/libflatarray/macros.hpp:access_member", "include/libflatarray/detail/macros.hpp:LIBFLATARRAY_DECLARE_SOA_MEMBER", "include/libflatarray/member_ptr_to_offset.hpp:member_ptr_to_offset"]}
{"id": "C07", "title": "Member pointer lookup", "statement": "member_ptr_to_offset returns, for a registered member, the sum of the sizes of all members registered before it, and throws std::invalid_argument for every member pointer that was not registered, even if another member has the same type.", "quantifier": "all member lists with distinct members, all member pointers", "why_tests_cant": "Overload/recursion chain depends on the whole member list; tests cover single lists.", "anchors": ["include/libflatarray/detail/macros.hpp:LIBFLATARRAY_DEFINE_FIELD_OFFSET", "include/libflatarray/detail/offset.hpp:offset", "include/libflatarray/member_ptr_to_offset.hpp:member_ptr_to_offset"]}
{"id": "C08", "title": "No machine-arithmetic overflow in address computation", "statement": "As long as the buffer size is below 2^63 bytes, computing the address of any in-range element in 64-bit wrap-around arithmetic gives the mathematically exact offset; beyond that limit the computation can wrap and alias.", "quantifier": "all member lists, all extents with byte_size < 2^63, all in-range elements, every intermediate product and sum", "why_tests_cant": "Overflow occurs only for huge extents that cannot be instantiated or allocated in tests.", "anchors": ["include/libflatarray/detail/macros.hpp:LIBFLATARRAY_DECLARE_SOA_MEMBER", "include/libflatarray/macros.hpp:gen_index"]}
{"id": "C09", "title": "Natural alignment of elements", "statement": "If the buffer start is aligned for every member type and the product of the extents is a multiple of each member's alignment, then every element address is aligned for its type. The default size lists satisfy this for alignments up to 32; an arbitrary soa_array capacity or custom size list does not guarantee it.", "quantifier": "all member lists with power-of-two alignments dividing sizes, all extents, all elements", "why_tests_cant": "Misalignment is silent on x86 and depends on the chosen sizes.", "anchors": ["include/libflatarray/detail/macros.hpp:LIBFLATARRAY_DECLARE_SOA_MEMBER", "include/libflatarray/api_traits.hpp:has_default_1d_sizes", "include/libflatarray/soa_array.hpp:my_data"]}
{"id": "C10", "title": "Grid extents cover the requested dimensions and are minimal", "statement": "When a grid of dimensions (x,y,z) is accepted, the extents passed to the functor are entries of the size list, each extent is at least the requested dimension, and with an ascending size list no smaller listed extent would do.", "quantifier": "all size lists (ascending where minimality is claimed), all five size policies, all dimensions", "why_tests_cant": "The if-chain is generated by the preprocessor from arbitrary lists.", "anchors": ["include/libflatarray/macros.hpp:LIBFLATARRAY_CUSTOM_SIZES", "include/libflatarray/macros.hpp:LIBFLATARRAY_CUSTOM_SIZES_1D_UNIFORM", "include/libflatarray/detail/macros.hpp:LIBFLATARRAY_CASE_DIM_X"]}
{"id": "C11", "title": "A grid size is rejected exactly when no listed extent fits", "statement": "callback() invokes the functor exactly once if the dimensions are supported, and throws std::out_of_range without invoking it otherwise; it is supported iff every dimension is at most the largest listed size and unused dimensions equal 1 for the 1D/2D policies.", "quantifier": "all size lists, policies, dimensions", "why_tests_cant": "Requires all dimensions, including the rejected ones.", "anchors": ["include/libflatarray/macros.hpp:LIBFLATARRAY_CUSTOM_SIZES", "include/libflatarray/macros.hpp:LIBFLATARRAY_CUSTOM_SIZES_1D_UNIFORM", "include/libflatarray/macros.hpp:LIBFLATARRAY_CUSTOM_SIZES_2D_UNIFORM", "include/libflatarray/macros.hpp:LIBFLATARRAY_CUSTOM_SIZES_3D_UNIFORM"]}
{"id": "C12", "title": "Const and non-const callbacks see the same layout", "statement": "A functor run through the const overload of callback() sees exactly the same extents as one run through the non-const overload, so data written via one is read back via the other.", "quantifier": "all policies, size lists and dimensions", "why_tests_cant": "The two overloads are separately written code (the 1D variant computes its maximum differently).", "anchors": ["include/libflatarray/macros.hpp:LIBFLATARRAY_CUSTOM_SIZES_1D_UNIFORM", "include/libflatarray/soa_grid.hpp:callback"]}
{"id": "C13", "title": "Default size policy", "statement": "Without custom sizes, every grid with dim_y>1 and dim_z>1 and all dims <=1032 is laid out as a cube, every grid with dim_z=1 and dims<=32800 as a square, every dim_y=dim_z=1 grid up to 1073741856 as a line; and every such non-degenerate box is accepted.", "quantifier": "all dimension triples", "why_tests_cant": "All triples; the policy in fact rejects boxes with dim_y=1 and dim_z>1.", "anchors": ["include/libflatarray/api_traits.hpp:select_sizes", "include/libflatarray/api_traits.hpp:has_default_1d_sizes", "include/libflatarray/api_traits.hpp:has_default_2d_sizes_uniform", "include/libflatarray/api_traits.hpp:has_default_3d_sizes_uniform"]}
{"id": "C14", "title": "Reading a cell returns the last value written to it", "statement": "After grid.set(x,y,z,c), grid.get(x,y,z) yields c in every member, and grid.get at any other coordinate yields what it yielded before; this holds for every accepted grid and coordinate inside its dimensions.", "quantifier": "all cell types, dims, size policies, coordinates, cell values and prior grid contents", "why_tests_cant": "Quantifies over all grids, contents and coordinate pairs.", "anchors": ["include/libflatarray/soa_grid.hpp:set", "include/libflatarray/soa_grid.hpp:get", "include/libflatarray/detail/set_instance_functor.hpp:set_instance_functor", "include/libflatarray/detail/get_instance_functor.hpp:get_instance_functor"]}
{"id": "C15", "title": "Bulk set/get and broadcast", "statement": "set(x,y,z,cells,n) writes cells[i] to (x+i,y,z) for all i<n and nothing else; get(x,y,z,cells,n) returns the n cells starting there in order; broadcast(x,y,z,c,n) writes c to those n cells and nothing else.", "quantifier": "all grids, start coordinates, lengths with x+n<=dim_x, cell sequences", "why_tests_cant": "Unbounded lengths and contents.", "anchors": ["include/libflatarray/soa_grid.hpp:set", "include/libflatarray/soa_grid.hpp:get", "include/libflatarray/soa_grid.hpp:broadcast", "include/libflatarray/detail/set_instance_functor.hpp:set_instance_functor"]}
{"id": "C16", "title": "A new grid is default-initialised and fully constructed", "statement": "After construction or a size-changing resize every cell inside the dimensions holds default-constructed members, with exactly one construction per member element.", "quantifier": "all cell types (trivial or not), dims, policies", "why_tests_cant": "All dims; double construction or a missed row is invisible for trivial types.", "anchors": ["include/libflatarray/soa_grid.hpp:soa_grid", "include/libflatarray/soa_grid.hpp:resize", "include/libflatarray/detail/construct_functor.hpp:construct_functor"]}
{"id": "C17", "title": "save and load are inverse and use the documented packed format", "statement": "save(x,y,z,target,n) writes each member as a consecutive array of n elements, all member arrays concatenated in registration order; load(x,y,z,source,n) reads exactly that format; load after save restores the cells, save after load reproduces the buffer, and neither touches bytes outside the packed n*aggregated_member_size region or cells outside the row.", "quantifier": "all cell types, grids, rows, lengths, buffer contents", "why_tests_cant": "All layouts and lengths; array members are interleaved differently from scalars.", "anchors": ["include/libflatarray/soa_grid.hpp:load", "include/libflatarray/soa_grid.hpp:save", "include/libflatarray/detail/macros.hpp:LIBFLATARRAY_COPY_SOA_MEMBER_ARRAY_IN", "include/libflatarray/detail/soa_array_member_copy_helper.hpp:copy_array_in", "include/libflatarray/detail/soa_array_member_copy_helper.hpp:copy_array_out"]}
{"id": "C18", "title": "Streak iterators", "statement": "load/save over a sequence of disjoint streaks place the streaks one after another in the packed buffer: the j-th cell of the concatenated streaks corresponds to the j-th slot of every member array, whatever the streak lengths (including zero).", "quantifier": "all sequences of pairwise disjoint in-range streaks, all stride counts at least the total length", "why_tests_cant": "Arbitrary iterator sequences.", "anchors": ["include/libflatarray/detail/load_functor.hpp:load_functor", "include/libflatarray/detail/save_functor.hpp:save_functor", "include/libflatarray/detail/simple_streak.hpp:simple_streak"]}
{"id": "C19", "title": "Copying a grid yields an equal, independent grid", "statement": "A copy-constructed grid and an assigned-to grid return the same cells as the source at every coordinate inside the dimensions and report the same dims and byte_size; later writes to either do not affect the other; self-assignment changes nothing.", "quantifier": "all cell types, grids, contents, later write sequences", "why_tests_cant": "Independence against every later write sequence.", "anchors": ["include/libflatarray/soa_grid.hpp:soa_grid", "include/libflatarray/soa_grid.hpp:operator=", "include/libflatarray/soa_grid.hpp:copy_in", "include/libflatarray/detail/copy_functor.hpp:copy_functor"]}
{"id": "C20", "title": "Copies report the same extents", "statement": "After copy construction extent_x/y/z of the copy equal those of the source.", "quantifier": "all grids", "why_tests_cant": "Reads of an uninitialised member give arbitrary values; a test may pass by luck.", "anchors": ["include/libflatarray/soa_grid.hpp:soa_grid", "include/libflatarray/soa_grid.hpp:extent_x"]}
{"id": "C21", "title": "Resize keeps or resets", "statement": "resize to the current dimensions leaves all contents untouched; resize to other accepted dimensions yields a grid of these dimensions whose cells are all default-initialised, the old storage is destroyed and released exactly once.", "quantifier": "all grids, old and new dims", "why_tests_cant": "All pairs of dims.", "anchors": ["include/libflatarray/soa_grid.hpp:resize", "include/libflatarray/soa_grid.hpp:destroy_and_deallocate"]}
{"id": "C22", "title": "Failed resize leaves a usable grid", "statement": "If resize throws because the dimensions are unsupported, the grid can still be destroyed or resized safely.", "quantifier": "all grids, all rejected dimensions", "why_tests_cant": "Use-after-free after an exception need not crash a test.", "anchors": ["include/libflatarray/soa_grid.hpp:resize", "include/libflatarray/soa_grid.hpp:destroy_and_deallocate"]}
{"id": "C23", "title": "Swap exchanges two grids", "statement": "After swap(a,b) every observer (dims, extents, byte_size, get) of a behaves as b's did before and vice versa.", "quantifier": "all pairs of grids", "why_tests_cant": "All pairs of dims; tests swap grids of a few shapes.", "anchors": ["include/libflatarray/soa_grid.hpp:swap"]}
{"id": "C24", "title": "A grid behaves like a map from coordinates to cells over any history", "statement": "For any finite sequence of construct, set, bulk set, broadcast, load, resize, copy, assign, get, save, destroy operations with in-range arguments on any number of grids, every get/save returns what a plain (coordinate -> cell) map per grid would return, and no operation reads or writes outside live storage.", "quantifier": "all finite operation sequences over any number of grids", "why_tests_cant": "Unbounded histories.", "anchors": ["include/libflatarray/soa_grid.hpp:soa_grid"]}
{"id": "C25", "title": "Object lifetimes are balanced", "statement": "In any such history each non-trivial member element is constructed exactly once before use, assigned only while alive, destroyed exactly once, and none is alive when its storage is released.", "quantifier": "all finite operation sequences, cell types with non-trivial members", "why_tests_cant": "Lifetimes of trivial types are invisible; leaks need exhaustive histories.", "anchors": ["include/libflatarray/detail/construct_functor.hpp:construct_functor", "include/libflatarray/detail/destroy_functor.hpp:destroy_functor", "include/libflatarray/detail/generic_destruct.hpp:generic_destruct", "include/libflatarray/soa_grid.hpp:destroy_and_deallocate"]}
{"id": "C26", "title": "Dual-grid callbacks", "statement": "callback(&other, functor) throws std::invalid_argument iff the dims differ (symmetric policy), otherwise the functor sees both grids with identical extents and sees each grid's own data.", "quantifier": "all pairs of grids, all functors", "why_tests_cant": "All pairs of dims.", "anchors": ["include/libflatarray/soa_grid.hpp:dual_callback", "include/libflatarray/soa_grid.hpp:assert_same_grid_sizes", "include/libflatarray/detail/dual_callback_helper.hpp:const_dual_callback_helper_symmetric"]}
{"id": "C27", "title": "Default-constructed grids can be copied", "statement": "A default-constructed soa_grid can be copied, assigned from and destroyed without undefined behaviour or exception.", "quantifier": "all size policies", "why_tests_cant": "Indeterminate byte_size may accidentally work.", "anchors": ["include/libflatarray/soa_grid.hpp:soa_grid", "include/libflatarray/soa_grid.hpp:copy_in"]}
{"id": "C28", "title": "soa_array behaves like a bounded sequence", "statement": "For any history of push_back/<<, pop_back, clear, element writes, load and copy between arrays, size(), operator[], at(), back() and iteration from begin() to end() agree with a plain list; pushing to a full array, popping an empty one and loading or copying too many elements throw out_of_range and leave the array unchanged.", "quantifier": "all capacities, all finite operation sequences, all cell types", "why_tests_cant": "Unbounded histories and capacities.", "anchors": ["include/libflatarray/soa_array.hpp:soa_array"]}
{"id": "C29", "title": "soa_array load from another accessor", "statement": "array.load(src, n, offset) copies cells src[0..n) to positions offset..offset+n, grows size to max(size, offset+n), leaves other elements unchanged and throws iff offset+n exceeds the capacity.", "quantifier": "all capacities, source capacities, source positions, offsets and counts", "why_tests_cant": "All combinations of strides (source and target capacity differ).", "anchors": ["include/libflatarray/soa_array.hpp:load"]}
{"id": "C30", "title": "soa_array constructor rejects too many elements", "statement": "soa_array<T,N>(n, value) yields n copies of value for every n <= N and never writes outside the object for n > N.", "quantifier": "all capacities N and counts n", "why_tests_cant": "Out-of-bounds writes inside the enclosing object can go unnoticed.", "anchors": ["include/libflatarray/soa_array.hpp:soa_array"]}
{"id": "C31", "title": "soa_array copies are deep", "statement": "Copying a soa_array (same or different capacity, const or not) copies elements member-wise, so non-trivial members are never duplicated bit-wise and each element is destroyed exactly once.", "quantifier": "all capacities, cell types with non-trivial members", "why_tests_cant": "Overload resolution picks the implicit copy constructor for const sources of equal size; double frees may go unnoticed.", "anchors": ["include/libflatarray/soa_array.hpp:soa_array", "include/libflatarray/soa_array.hpp:operator="]}
{"id": "C32", "title": "soa_array swap", "statement": "swap(a,b) exchanges sizes and all elements.", "quantifier": "all arrays of equal capacity, all contents", "why_tests_cant": "All contents.", "anchors": ["include/libflatarray/soa_array.hpp:swap"]}
{"id": "C33", "title": "soa_array lifetimes", "statement": "Construction constructs each of the MY_SIZE elements once; destruction destroys each of them exactly once, whatever happened in between.", "quantifier": "all capacities and histories", "why_tests_cant": "Unbounded histories.", "anchors": ["include/libflatarray/soa_array.hpp:construct_all_instances", "include/libflatarray/soa_array.hpp:~soa_array"]}
{"id": "C34", "title": "soa_vector behaves like a sequence", "statement": "For trivially copyable cells and the default sizes, any history of push_back, pop_back (non-empty), set/get in range, clear, resize downwards, and reserve(n>=size) gives the same size() and elements as a plain list; reallocations preserve all elements.", "quantifier": "all finite operation sequences, all cell values", "why_tests_cant": "Growth thresholds occur at 32, 64, 128, ... and use floating point.", "anchors": ["include/libflatarray/soa_vector.hpp:soa_vector"]}
{"id": "C35", "title": "soa_vector capacity bounds size", "statement": "size() never exceeds capacity().", "quantifier": "all histories", "why_tests_cant": "Depends on the history.", "anchors": ["include/libflatarray/soa_vector.hpp:capacity", "include/libflatarray/soa_vector.hpp:push_back"]}
{"id": "C36", "title": "soa_vector elements are constructed objects", "statement": "push_back and pop_back only assign to constructed elements, also for cells with non-trivial members.", "quantifier": "all histories, non-trivial cells", "why_tests_cant": "Assigning to zeroed raw memory often works by luck.", "anchors": ["include/libflatarray/soa_vector.hpp:push_back", "include/libflatarray/soa_vector.hpp:pop_back"]}
{"id": "C37", "title": "soa_vector growth always makes room", "statement": "When push_back finds the storage full it enlarges it, so the write is in bounds.", "quantifier": "all size policies, all counts", "why_tests_cant": "Fails only for particular size lists; uses count*1.2 in floating point.", "anchors": ["include/libflatarray/soa_vector.hpp:push_back"]}
{"id": "C38", "title": "soa_vector copies are equal", "statement": "A copied or assigned soa_vector has the same size and elements as its source and remains usable.", "quantifier": "all histories before the copy", "why_tests_cant": "Loss occurs only for elements between dim_x and extent_x.", "anchors": ["include/libflatarray/soa_vector.hpp:soa_vector", "include/libflatarray/soa_grid.hpp:soa_grid"]}
{"id": "C39", "title": "soa_vector reserve is never destructive", "statement": "reserve(n) for any n keeps all elements and never writes out of bounds.", "quantifier": "all n and histories", "why_tests_cant": "Fails only for n < size.", "anchors": ["include/libflatarray/soa_vector.hpp:reserve"]}
{"id": "C40", "title": "soa_vector resize value-initialises new elements", "statement": "After resize(n) with n > size(), elements size()..n-1 are default-constructed.", "quantifier": "all histories and n", "why_tests_cant": "Stale data only appears after clear or earlier shrink.", "anchors": ["include/libflatarray/soa_vector.hpp:resize"]}
{"id": "C41", "title": "aligned_allocator returns aligned, disjoint, sufficiently large blocks", "statement": "allocate(n) returns an address that is a multiple of ALIGNMENT; the n*sizeof(T) bytes from it and the bookkeeping word before it lie inside the chunk obtained from the underlying allocator; blocks alive at the same time are disjoint.", "quantifier": "all ALIGNMENT >= sizeof(void*), all n without overflow, all addresses the underlying allocator may return, all allocation histories", "why_tests_cant": "Underlying addresses and alignments are arbitrary.", "anchors": ["include/libflatarray/aligned_allocator.hpp:allocate", "include/libflatarray/aligned_allocator.hpp:upsize"]}
{"id": "C42", "title": "aligned_allocator releases exactly what it obtained", "statement": "In any history of allocations and matching deallocations (with user writes confined to the user blocks), every deallocate(p,n) returns to the underlying allocator exactly the chunk address and size that the allocation of p obtained, once.", "quantifier": "all histories, all user writes inside blocks", "why_tests_cant": "Depends on all interleavings and on the hidden header surviving user writes.", "anchors": ["include/libflatarray/aligned_allocator.hpp:deallocate", "include/libflatarray/aligned_allocator.hpp:allocate"]}
{"id": "C43", "title": "aligned_allocator overflow and small alignments", "statement": "For every n and every ALIGNMENT allocate(n) either fails or returns a block of n*sizeof(T) bytes with the bookkeeping word inside the chunk.", "quantifier": "all n up to 2^64-1, all ALIGNMENT >= 1", "why_tests_cant": "Requires huge n / unusual ALIGNMENT.", "anchors": ["include/libflatarray/aligned_allocator.hpp:upsize", "include/libflatarray/aligned_allocator.hpp:allocate"]}
{"id": "C44", "title": "Loop peeler processes every index exactly once", "statement": "LIBFLATARRAY_LOOP_PEELER and loop_peeler invoke the kernel so that each index in [X, END) is processed exactly once and in order, no index outside is processed, and vector-width invocations start at multiples of ARITY.", "quantifier": "all ARITY >= 1, all 0 <= X <= END", "why_tests_cant": "All X, END, ARITY; short ranges inside one vector are the corner case.", "anchors": ["include/libflatarray/loop_peeler.hpp:LIBFLATARRAY_LOOP_PEELER_IMPLEMENTATION", "include/libflatarray/loop_peeler.hpp:loop_peeler"]}
{"id": "C45", "title": "CUDA launch configuration covers every cell exactly once", "statement": "The generated launch configuration together with the bounds checks in the kernels makes every (x,y,z) in the requested box be handled by exactly one thread and no other cell by any thread.", "quantifier": "all x,y,z >= 0 fitting int", "why_tests_cant": "Needs all sizes; GPU not available in CI.", "anchors": ["include/libflatarray/detail/generate_cuda_launch_config.hpp:generate_cuda_launch_config", "include/libflatarray/detail/construct_functor.hpp:construct_kernel"]}
{"id": "C46", "title": "CUDA kernels agree with the host functors under every schedule", "statement": "Whatever order the threads of construct/destroy/set/get/load/save kernels run in, the resulting memory equals that of the corresponding sequential host functor.", "quantifier": "all thread schedules, all boxes and counts within the launch limits of C45", "why_tests_cant": "Schedules are not controllable in tests.", "anchors": ["include/libflatarray/detail/set_instance_functor.hpp:set_kernel", "include/libflatarray/detail/load_functor.hpp:load_kernel", "include/libflatarray/detail/construct_functor.hpp:construct_kernel"]}
{"id": "C47", "title": "CUDA broadcast writes all cells", "statement": "broadcast(x,y,z,c,n) on a CUDA grid writes c to all n cells.", "quantifier": "all n", "why_tests_cant": "Only visible on a GPU and for n > 1.", "anchors": ["include/libflatarray/detail/set_instance_functor.hpp:set_kernel", "include/libflatarray/soa_grid.hpp:broadcast"]}
{"id": "C48", "title": "cuda_array behaves like a sequence", "statement": "For any history of construct, resize (with or without default), reserve, load, save, copy, assign, destroy, the first size() elements agree with a plain list, size() <= capacity(), device memory is released exactly once and never accessed out of bounds.", "quantifier": "all histories of operations over several arrays", "why_tests_cant": "Unbounded histories.", "anchors": ["include/libflatarray/cuda_array.hpp:cuda_array", "include/libflatarray/cuda_allocator.hpp:cuda_allocator"]}
{"id": "C49", "title": "short_vec arithmetic is lane-wise", "statement": "For every arity of the portable implementations of short_vec<float>, short_vec<double>, short_vec<int>: +,-,*,/,+=,-=,*=,/= and sqrt apply the scalar operation to each lane independently and in lane order.", "quantifier": "all arities 1..32, all element values, all scalar semantics of the operators", "why_tests_cant": "Hand-unrolled code for every arity: a wrong lane index is invisible unless the lanes differ.", "anchors": ["include/libflatarray/detail/short_vec_scalar_float_16.hpp:short_vec", "include/libflatarray/detail/short_vec_scalar_double_8.hpp:short_vec", "include/libflatarray/detail/short_vec_scalar_int_32.hpp:short_vec"]}
{"id": "C50", "title": "short_vec load, store, gather, scatter, broadcast", "statement": "load followed by store copies ARITY consecutive elements unchanged; gather(ptr, offsets) reads ptr[offsets[i]] into lane i; scatter writes lane i to ptr[offsets[i]]; the scalar constructor fills all lanes; operator[] i returns lane i; only ARITY elements are accessed.", "quantifier": "all arities, element values, memory contents, offset vectors", "why_tests_cant": "Hand-unrolled per arity.", "anchors": ["include/libflatarray/detail/short_vec_scalar_float_16.hpp:load", "include/libflatarray/detail/short_vec_scalar_float_16.hpp:gather"]}
{"id": "C51", "title": "short_vec comparisons, masks, blend, any, count", "statement": "Comparison masks have exactly the bits of the lanes where the scalar comparison holds, get/any/count_mask read them consistently and blend replaces exactly the selected lanes.", "quantifier": "all arities up to 32, all lane values, all masks", "why_tests_cant": "2^ARITY masks.", "anchors": ["include/libflatarray/short_vec.hpp:count_mask", "include/libflatarray/detail/short_vec_scalar_int_32.hpp:blend", "include/libflatarray/detail/short_vec_scalar_int_32.hpp:any"]}
{"id": "C52", "title": "short_vec compound division equals division", "statement": "For short_vec<int, N> in every ISA variant a /= b leaves a equal to a / b.", "quantifier": "all lane values with non-zero divisor", "why_tests_cant": "Tests use operands where rounding modes agree.", "anchors": ["include/libflatarray/detail/short_vec_sse_int_4.hpp:operator/=", "include/libflatarray/detail/short_vec_avx512_int_16.hpp:operator/="]}
{"id": "C53", "title": "short_vec width selection", "statement": "ilp_to_arity<CARGO, ILP>::ARITY lanes occupy exactly ILP hardware registers, and the streaming variant is chosen iff the working set is at least the cache estimate.", "quantifier": "all ILP factors, element sizes dividing the register width, all working set sizes", "why_tests_cant": "Compile-time constants; only instantiated values get tested.", "anchors": ["include/libflatarray/ilp_to_arity.hpp:ilp_to_arity", "include/libflatarray/estimate_optimum_short_vec_type.hpp:estimate_optimum_short_vec_type"]}
{"id": "C54", "title": "Registration macros visit each member once in order", "statement": "LIBFLATARRAY_FOR_EACH expands the callback for the i-th list element with index i, in order, for every list of 1..51 elements; LIBFLATARRAY_SIZE, ELEM, DEQUEUE and IF_SHORTER compute length, n-th element, tail and length comparison.", "quantifier": "all list lengths up to the supported maximum", "why_tests_cant": "Each length expands through different macros; tests try lengths 0, 1, 5.", "anchors": ["include/libflatarray/detail/preprocessor.hpp:LIBFLATARRAY_FOR_EACH", "include/libflatarray/detail/preprocessor.hpp:LIBFLATARRAY_SIZE", "include/libflatarray/detail/preprocessor.hpp:LIBFLATARRAY_IF_SHORTER"]}
{"id": "C55", "title": "soa_vector growth preserves elements for every size policy", "statement": "reserve() (and push_back, when it has to enlarge) keeps every element, whatever sizes the cell type's api_traits admit, including two- and three-dimensional size lists.", "quantifier": "all size policies, all contents", "why_tests_cant": "Only policies whose y or z extents exceed 1 are affected; the default policy is one-dimensional.", "anchors": ["include/libflatarray/soa_vector.hpp:reserve", "include/libflatarray/soa_grid.hpp:load"]}
{"id": "C56", "title": "soa_vector storage is released exactly once", "statement": "At any time there is exactly one allocated block per existing soa_vector, of the size of its storage; when all vectors were destroyed nothing is allocated.", "quantifier": "all histories of construction, copying, growth, swap-based reallocation and destruction", "why_tests_cant": "Leaks and double frees depend on the history; reallocation swaps a temporary grid.", "anchors": ["include/libflatarray/soa_vector.hpp:soa_vector", "include/libflatarray/soa_vector.hpp:reserve", "include/libflatarray/soa_grid.hpp:swap"]}
{"id": "C57", "title": "short_vec addition, subtraction, multiplication do not depend on the instruction set", "statement": "For every short_vec<T, N> of every instruction set (portable, SSE2, SSE4.1, AVX, AVX2, AVX512, NEON, MIC, QPX) the results of a + b, a - b, a * b, with two vectors, the same vector twice, or a scalar on the left, are the scalar operation applied to each lane; two implementations of the same T and N return the same lanes.", "quantifier": "all 86 class variants, all lane values, all semantics of the scalar operations", "why_tests_cant": "A build uses one instruction set; several variants (MIC, QPX, NEON) are not built by any test configuration at hand.", "anchors": ["include/libflatarray/detail/short_vec_sse_int_4.hpp:operator*", "include/libflatarray/detail/short_vec_avx512_float_16.hpp:operator+", "include/libflatarray/short_vec.hpp:operator+"]}
{"id": "C58", "title": "short_vec load and store work at any address and touch exactly ARITY elements", "statement": "load, the pointer and initializer-list constructors and store access data[0..N-1], each element once, at any alignment of data; load_aligned, store_aligned and store_nt do the same when data is aligned as short_vec_strategy of the class says.", "quantifier": "all class variants, all alignments within a cache line, all contents", "why_tests_cant": "Misaligned addresses and the neighbours of the array are rarely exercised; aligned accesses trap only for some addresses.", "anchors": ["include/libflatarray/detail/short_vec_avx_float_8.hpp:load", "include/libflatarray/detail/short_vec_neon_float_8.hpp:load_aligned", "include/libflatarray/detail/short_vec_mic_double_8.hpp:load"]}
{"id": "C59", "title": "short_vec stream output lists the lanes in order", "statement": "operator<<(ostream, short_vec<T, N>) prints '[', the N lanes in order separated by ', ', and ']'.", "quantifier": "all class variants, all lane values", "why_tests_cant": "Output of 16 and 32 lane vectors of rarely used instruction sets is not compared.", "anchors": ["include/libflatarray/detail/short_vec_qpx_double_32.hpp:operator<<", "include/libflatarray/detail/short_vec_avx512_float_16.hpp:operator<<"]}
{"id": "C60", "title": "Division of short_vec<int> equals int division", "statement": "Lane i of a / b is the C++ int quotient of the lanes i, and sqrt of an int vector is the truncated square root, in every instruction set.", "quantifier": "all lane values with non-zero divisor", "why_tests_cant": "Wrong only above 2^24 or for non-square radicands on SIMD builds.", "anchors": ["include/libflatarray/detail/short_vec_sse_int_4.hpp:operator/", "include/libflatarray/detail/short_vec_sse_int_4.hpp:sqrt"]}
{"id": "C61", "title": "Every configuration defines each short_vec class exactly once", "statement": "For the instruction set the preprocessor selects, short_vec<T, N> with T in {float, double, int} and N in {1, 2, 4, 8, 16, 32} is defined by exactly one of the included headers; for other N by none; the selected instruction set is the widest one the target supports.", "quantifier": "all combinations of predefined macros and compiler versions, all T, all N", "why_tests_cant": "A build exercises one combination of macros; conflicting or missing guards show up only on that target.", "anchors": ["include/libflatarray/short_vec.hpp:LIBFLATARRAY_WIDEST_VECTOR_ISA", "include/libflatarray/detail/short_vec_scalar_float_32.hpp:short_vec", "include/libflatarray/detail/short_vec_sse_float_4.hpp:short_vec"]}
{"id": "C62", "title": "streaming_short_vec is short_vec with streaming stores", "statement": "streaming_short_vec<T, N> loads like short_vec<T, N>; its store, store_aligned and ptr << vec use non-temporal stores and write lane i to data[i] for the N lanes, provided the address is aligned.", "quantifier": "all class variants, all lane values, all aligned addresses", "why_tests_cant": "Whether a store is non-temporal is not observable in its result, only in its alignment demands.", "anchors": ["include/libflatarray/streaming_short_vec.hpp:store", "include/libflatarray/streaming_short_vec.hpp:operator<<"]}
{"id": "C63", "title": "LIBFLATARRAY_REGISTER_SOA expands to four accessor classes covering every member", "statement": "In every translation unit that includes the library, LIBFLATARRAY_REGISTER_SOA(C, members) expands, for every class name and every list of 1 to 51 scalar and array members, to the offset specialisations in declaration order, number_of_members, aggregated_member_size and the four accessor classes; each of the bulk functions (=, <<, >>, load, save, construct_members, destroy_members, copy_members) treats each member exactly once in declaration order, scalar members and array members each in their own way.", "quantifier": "all macro environments containing the library, all member lists of length 1 to 51", "why_tests_cant": "Tests register a handful of classes; a wrong FOR_EACH_k line or a member skipped for one list length stays unnoticed.", "anchors": ["include/libflatarray/macros.hpp:LIBFLATARRAY_REGISTER_SOA_MAIN", "include/libflatarray/detail/macros.hpp:LIBFLATARRAY_DEFINE_FIELD_OFFSET", "include/libflatarray/detail/macros.hpp:LIBFLATARRAY_COPY_SOA_GENERIC_MEMBER_ARRAY_IN"]}
{"id": "C64", "title": "The generated offset constants are the byte sums of the preceding members", "statement": "For every registered class, detail::flat_array::offset<C, i>::OFFSET evaluates to the sum of sizeof(T_j) * arity_j over the members j < i (arity 1 for scalars), number_of_members<C>::VALUE is the number of members and aggregated_member_size<C>::VALUE the sum over all members, for every arity expression.", "quantifier": "all classes, all member lists, all sizes, all arity expressions", "why_tests_cant": "Tests use literal arities only.", "anchors": ["include/libflatarray/detail/macros.hpp:LIBFLATARRAY_DEFINE_FIELD_OFFSET", "include/libflatarray/macros.hpp:LIBFLATARRAY_REGISTER_SOA_MAIN", "include/libflatarray/detail/offset.hpp:offset"]}
{"id": "C65", "title": "The address expressions of the generated accessors denote the element of the struct-of-arrays layout", "statement": "In all four generated accessor classes member(), member<k>(), access_member<T, j>() and access_member(size, offset) evaluate to data + DIM_PROD * (sizeof(T) * k + offset) + (index + INDEX) * sizeof(T), with the light accessors reading the index through their pointer; gen_index, operator[](coord) and DIM_PROD evaluate to the index arithmetic of the layout; load and save address the values of member i at offset_i * stride.", "quantifier": "all registered classes, all extents, indices, coordinates and array indices", "why_tests_cant": "The four classes are generated by separate copies of the text; tests read through some of them only.", "anchors": ["include/libflatarray/detail/macros.hpp:LIBFLATARRAY_DECLARE_SOA_MEMBER", "include/libflatarray/macros.hpp:access_member", "include/libflatarray/macros.hpp:gen_index"]}
{"id": "C66", "title": "The size-list macros generate the first-fit selection of the listed sizes", "statement": "For every list of 1 to 51 sizes, LIBFLATARRAY_CUSTOM_SIZES and its 1D, 2D and 3D uniform variants expand to the functions select_size and bind_size_x/y/z with one case per size in list order followed by a throw; select_size(data, functor, x, y, z) runs the functor exactly on the extents made of the first listed size that is at least the wanted dimension (each dimension, or the maximum), and throws std::out_of_range if there is none or if a dimension that must be 1 is not; the same for const data. The default size classes are instances.", "quantifier": "all lists of sizes, all dimensions, both constness variants", "why_tests_cant": "The functions are generated in two copies per macro, tests instantiate a few lists and sizes.", "anchors": ["include/libflatarray/macros.hpp:LIBFLATARRAY_CUSTOM_SIZES", "include/libflatarray/detail/macros.hpp:LIBFLATARRAY_CASE_DIM_X", "include/libflatarray/api_traits.hpp:has_default_1d_sizes"]}
{"id": "C67", "title": "A neighbour accessor follows the accessor it was taken from", "statement": "n = x[coord<X, Y, Z>()] stands, for as long as x lives and neither is assigned to, for the cell displaced by (X, Y, Z) from the cell x stands for at that moment, however x, n or further neighbours and copies are advanced; a neighbour of a const_soa_accessor keeps the index of the moment it was taken. Every program of declarations, neighbour lookups, copies, assignments, increments and index changes on the four accessor classes behaves like one in which accessors are positions instead of pointers.", "quantifier": "all programs over the four accessor classes, all extents, coordinates and indices", "why_tests_cant": "Tests use neighbours at once, in the expression that makes them; sharing of the index shows only later.", "anchors": ["include/libflatarray/macros.hpp:operator[]", "include/libflatarray/macros.hpp:operator+=", "include/libflatarray/macros.hpp:soa_accessor_light"]}
{"id": "C68", "title": "Assigning one accessor to another copies the cell; equal accessors stand for the same cell", "statement": "x = y for accessors x and y copies all members of the cell y stands for to the cell x stands for and changes neither accessor; x == y holds exactly if x and y stand for the same cell.", "quantifier": "all programs over the four accessor classes, all pairs of accessors", "why_tests_cant": "Whether an assignment copies a cell or rebinds the accessor depends on the types on both sides; tests assign cells and a few accessor combinations.", "anchors": ["include/libflatarray/macros.hpp:operator=", "include/libflatarray/macros.hpp:operator==", "include/libflatarray/soa_array.hpp:operator[]"]}
{"id": "C69", "title": "The benchmark text helpers trim, split and join correctly", "statement": "For every string, trim returns the string without the blanks around it; tokenize(line, d) returns the trimmed parts between the delimiters, in order, not counting an empty part after a delimiter at the end; join puts the delimiter between the tokens, and joining what tokenize returned restores the line where nothing was trimmed. None of them reads outside its string.", "quantifier": "all strings, all delimiters", "why_tests_cant": "The loops in trim stop at hard-coded positions (end > 1) and subtract unsigned numbers; corner cases such as strings of one or two blanks decide.", "anchors": ["include/libflatarray/testbed/cpu_benchmark.hpp:trim", "include/libflatarray/testbed/cpu_benchmark.hpp:tokenize", "include/libflatarray/testbed/cpu_benchmark.hpp:join"]}
{"id": "C70", "title": "The CPU name is found in /proc/cpuinfo", "statement": "For every contents of /proc/cpuinfo parse_proc_cpu returns the trimmed value of the first entry 'model name' or 'cpu', and throws std::runtime_error if there is none or the file cannot be read.", "quantifier": "all file contents", "why_tests_cant": "Tests see the /proc/cpuinfo of the machine they run on.", "anchors": ["include/libflatarray/testbed/cpu_benchmark.hpp:parse_proc_cpu"]}
{"id": "C71", "title": "device() prefers likwid-topology and falls back to /proc/cpuinfo", "statement": "device() returns 'type, name' with the fields that follow the last 'CPU type' and 'CPU name' in the comma separated output of likwid-topology; if either is missing it returns what /proc/cpuinfo names, and 'unknown CPU' if that fails as well; it never throws and never reads outside its buffers.", "quantifier": "all outputs of likwid-topology, all contents of /proc/cpuinfo", "why_tests_cant": "Depends on installed tools and on the machine; the read buffer keeps remains of earlier lines.", "anchors": ["include/libflatarray/testbed/cpu_benchmark.hpp:device", "include/libflatarray/testbed/cpu_benchmark.hpp:parse_likwid_topology"]}
{"id": "C72", "title": "A benchmark result is one line of ten columns under the header", "statement": "evaluate runs a benchmark exactly if its family contains the requested name, and prints one line that splits at the semicolons into revision, date, host, device, order, family, species, dimensions, performance and unit, in the order of the header and aligned with it; the dimensions are printed as decimal numbers in parentheses.", "quantifier": "all names, benchmarks, dimensions and field values", "why_tests_cant": "Tests do not look at the output of the benchmarks.", "anchors": ["include/libflatarray/testbed/evaluate.hpp:operator()", "include/libflatarray/testbed/evaluate.hpp:print_header"]}
{"id": "C73", "title": "The generated bulk functions do what the member declarations say", "statement": "For every registered class and every accessor, running the statements that the registration macro generates for construct_members, destroy_members, load, save, copy_members, operator= and operator>> performs, in order, for each member and each of its elements exactly one construction, destruction or copy, at the address of that element in the array and at the matching place of the buffer, the other accessor or the cell. Required of the class: distinct member names other than cell, and arities that do not use the names i, count, offset, stride of the generated functions.", "quantifier": "all registered classes of at most 51 members, all types and arities, all accessors, counts, offsets, strides and buffers", "why_tests_cant": "The functions are text generated per class; a test instantiates a few classes. Capture of a name by the generated code shows only for classes that use the name.", "anchors": ["include/libflatarray/detail/macros.hpp:LIBFLATARRAY_INIT_SOA_GENERIC_MEMBER", "include/libflatarray/detail/macros.hpp:LIBFLATARRAY_COPY_SOA_GENERIC_MEMBER_IN", "include/libflatarray/detail/macros.hpp:LIBFLATARRAY_COPY_SOA_GENERIC_MEMBER_ARRAY_IN", "include/libflatarray/detail/macros.hpp:LIBFLATARRAY_COPY_SOA_GENERIC_MEMBER", "include/libflatarray/detail/soa_array_member_copy_helper.hpp:copy_array_in"]}
{"id": "C74", "title": "The stencil examples compute their filters, with every vector width and thread order, like the C99 programs", "statement": "For any history of grid operations and sweeps grid_old.callback(&grid_new, functor) with the Jacobi or the Gauss functor, on any number of grids, the program has no undefined behaviour, and every cell read afterwards is the one that pointwise application of the 7-point resp. the 25-point formula to the interior, leaving the boundary alone, gives; the bytes are the same for every vector class of double the library can select on a target, every alignment of the storage and every order of the parallel iterations. After n update-and-swap steps they are those the C99 program has after n steps. Required: two different grids of equal dimensions, at least one vector wide (the first multiple of the vector length not below the first x is not beyond the last one).", "quantifier": "all histories, dimensions, contents, vector classes, alignments, iteration orders, numbers of steps, and all meanings of double addition and multiplication", "why_tests_cant": "A test runs one vector width, one thread schedule and a few dimensions, and compares sums; overruns show only for dimensions that are no multiple of the width, on the boundary.", "anchors": ["examples/jacobi/main.cpp:update_functor", "examples/gauss/main.cpp:filter_functor", "examples/jacobi/update_c99.c:update_c99", "examples/gauss/filter_c99.c:filter_c99", "include/libflatarray/loop_peeler.hpp:LIBFLATARRAY_LOOP_PEELER_TEMPLATE", "include/libflatarray/soa_grid.hpp:callback"]}
{"id": "C75", "title": "The vector kernels of the SPH example compute what its C kernels compute", "statement": "For any number n of particles compute_density_lfa and compute_accel_lfa access only the n particles and leave the particles as compute_density and compute_accel do, whatever the vector length; hence so does any number of time steps.", "quantifier": "all numbers of particles, vector lengths, positions, velocities, parameters, numbers of steps, and all meanings of the arithmetic in which multiplication commutes", "why_tests_cant": "A test compares one particle count; reading past the last particle has an effect only if the count is no multiple of the vector length and stale storage behind looks like a near particle.", "anchors": ["examples/smoothed_particle_hydrodynamics/kernels.hpp:compute_density_lfa", "examples/smoothed_particle_hydrodynamics/kernels.hpp:compute_accel_lfa", "examples/smoothed_particle_hydrodynamics/kernels.hpp:handle_interactions", "examples/smoothed_particle_hydrodynamics/kernels.c:compute_density", "examples/smoothed_particle_hydrodynamics/kernels.c:compute_accel"]}
{"id": "C76", "title": "The SPH kernels compute sums over all other particles and conserve momentum", "statement": "In exact arithmetic compute_density gives each particle its own density plus the contribution of every other particle within the pitch, each counted once, and compute_accel gives it gravity plus the force of every other particle within the pitch; nothing else changes. The forces cancel: the accelerations of all particles add up to gravity alone. Likewise for the vector kernels if the number of particles is a multiple of the vector length.", "quantifier": "all commutative rings with division by multiplication, all numbers of particles, positions, velocities and parameters", "why_tests_cant": "Floating-point rounding hides a missed or doubled pair; conservation is a statement about all configurations.", "anchors": ["examples/smoothed_particle_hydrodynamics/kernels.c:compute_density", "examples/smoothed_particle_hydrodynamics/kernels.c:compute_accel", "examples/smoothed_particle_hydrodynamics/kernels.hpp:compute_density_lfa", "examples/smoothed_particle_hydrodynamics/kernels.hpp:compute_accel_lfa"]}
{"id": "C77", "title": "The three lattice Boltzmann kernels compute the same D3Q19 sweep, whatever the thread schedule", "statement": "On any launch whose threads fit inside the grid, the classic (array of components), the object oriented (array of cells) and the LibFlatArray kernel complete in every interleaving of the threads without an access outside the allocation, and leave in gridNew, in every covered cell, the collision of the 19 components streaming in from the neighbours in gridOld; all other cells are unchanged. The collision is the same function for the three, with any meaning of double arithmetic; in exact arithmetic it is the BGK relaxation with omega = 1/1.7 towards the D3Q19 equilibrium. Hence after any number of time steps the three programs hold the same grids.", "quantifier": "all launches, dimensions, extents, contents, thread schedules, numbers of steps, all meanings of double arithmetic", "why_tests_cant": "The kernels only run on a GPU, the example prints a performance and never compares results; a wrong index or a race shows only in some cells.", "anchors": ["examples/lbm/cell.h:updateLine", "examples/lbm/update_lbm_classic.h:update_lbm_classic", "examples/lbm/update_lbm_object_oriented.h:update_lbm_object_oriented", "examples/lbm/cudalineupdatefunctorprototype.h:update"]}
{"id": "C78", "title": "The lattice Boltzmann collision conserves mass and momentum", "statement": "In exact arithmetic the sum of the 19 components and the three momentum components after a collision are those before, for every cell; a cell in equilibrium stays unchanged.", "quantifier": "all fields containing the integers, all cell contents", "why_tests_cant": "Conservation is a statement about all contents; rounding hides a wrong coefficient in a test of a few steps.", "anchors": ["examples/lbm/cell.h:updateLine", "examples/lbm/update_lbm_classic.h:update_lbm_classic"]}
{"id": "C79", "title": "The lattice Boltzmann benchmark updates the interior of its grids and reports its rate", "statement": "For every dim the launch computed by gen_dims updates exactly the interior cells, those two or more cells away from the faces, without leaving the allocations and independently of the schedule; gridSize is the number of cells updated; the number printed is that of 10^9 cell updates per second.", "quantifier": "all dim", "why_tests_cant": "The benchmark prints one number and checks nothing.", "anchors": ["examples/lbm/util.h:gen_dims", "examples/lbm/util.h:gridSize", "examples/lbm/util.h:cudaExec", "examples/lbm/util.h:run"]}
{"id": "C80", "title": "Every grid of the lattice Boltzmann example finds its compiled kernel", "statement": "For all dimensions which the registration of the cell accepts, the extents selected for two grids of these dimensions are among the IMPLEMENTATION lines of the eleven generated files; none of the lines occurs twice or is never needed.", "quantifier": "all dimensions", "why_tests_cant": "A missing line is a link error for one of 1331 combinations; a test tries a few.", "anchors": ["examples/lbm/flatarray_implementation_0.cu:IMPLEMENTATION", "examples/lbm/generator", "include/libflatarray/api_traits.hpp:has_default_3d_sizes"]}
{"id": "C81", "title": "The five JacobiD3Q7 benchmark species compute the same seven-point filter", "statement": "For every size of the runs and every start grid each species (Vanilla, Pepper, Bronze, Silver, Gold) stays inside its two grids, and after n sweeps holds n applications of the seven-point filter to all interior cells, with all boundary cells unchanged. The number of updates in the reported rate is the number of cells updated.", "quantifier": "all dimensions, contents, addresses, vector widths, numbers of sweeps, and all meanings of double arithmetic", "why_tests_cant": "The benchmarks print rates and never compare the grids; a missing term changes nothing that is printed.", "anchors": ["examples/performance_tests/main.cpp:JacobiD3Q7Vanilla", "examples/performance_tests/main.cpp:JacobiD3Q7Pepper", "examples/performance_tests/main.cpp:JacobiD3Q7Bronze", "examples/performance_tests/main.cpp:JacobiD3Q7Silver", "examples/performance_tests/main.cpp:JacobiD3Q7Gold"]}
{"id": "C82", "title": "The seven NBody benchmark species compute the same trajectories and conserve momentum", "statement": "For every number of particles up to the largest capacity each species (Vanilla, Pepper, Curry, Iron, Bronze, Silver, Gold) stays inside its containers and after r repetitions holds for every particle the r-th step of: velocity plus the softened gravitation of all n particles times the time step, then position plus old velocity times the time step. In exact arithmetic the sum of the velocities does not change.", "quantifier": "all numbers of particles, start values, numbers of repetitions; scalar and short_vec species in any arithmetic, those with reciprocal intrinsics in exact arithmetic", "why_tests_cant": "The benchmarks print rates and never compare the particles; only multiples of eight are run.", "anchors": ["examples/performance_tests/main.cpp:NBodyVanilla", "examples/performance_tests/main.cpp:NBodyPepper", "examples/performance_tests/main.cpp:NBodyCurry", "examples/performance_tests/main.cpp:NBodyIron", "examples/performance_tests/main.cpp:NBodyBronze", "examples/performance_tests/main.cpp:NBodySilver", "examples/performance_tests/main.cpp:NBodyGold"]}
{"id": "C83", "title": "The three ParticleMover benchmark species sort the particles alike", "statement": "After every repetition the particles with x below the boundary of that repetition are in the left container and all others in the right one, none lost or doubled, in Vanilla (std::list), Pepper (std::vector) and Gold (soa_array).", "quantifier": "all particles, boundaries, numbers of repetitions; comparisons without NaN", "why_tests_cant": "The sizes of the containers are only printed by code that is commented out.", "anchors": ["examples/performance_tests/main.cpp:ParticleMoverVanilla", "examples/performance_tests/main.cpp:ParticleMoverPepper", "examples/performance_tests/main.cpp:ParticleMoverGold"]}
{"id": "C84", "title": "The two ParticleInteractor benchmark species compute the same velocities", "statement": "For every number of particles that fit the storage Gold terminates inside its storage and both species leave the same velocities; each component of the velocities is collected from the neighbours within the radius.", "quantifier": "all numbers of particles up to the storage, positions, velocities, radii, numbers of repetitions, and all meanings of float arithmetic", "why_tests_cant": "The velocities are zero in all runs and never read.", "anchors": ["examples/performance_tests/main.cpp:ParticleInteractorVanilla", "examples/performance_tests/main.cpp:ParticleInteractorGold"]}
{"id": "C85", "title": "The two ConditionalAny benchmark species count the same pairs", "statement": "For every number of particles both species count in each repetition the pairs of particles (ordered, including a particle and itself) within the radius; in the runs the counter does not overflow.", "quantifier": "all numbers of particles, positions, radii, numbers of repetitions; the sums of 0.0f and 1.0f as in single precision", "why_tests_cant": "The counter is printed only if it happens to be 4711; a rounded sum needs more than 2^24 pairs in one lane.", "anchors": ["examples/performance_tests/main.cpp:ConditionalAnyVanilla", "examples/performance_tests/main.cpp:ConditionalUpdater", "examples/performance_tests/main.cpp:ConditionalAnyGold"]}
{"id": "C86", "title": "An exception from user code leaves soa_grid objects usable and loses no storage", "statement": "If a constructor or assignment operator of a member, or the allocator, throws during set, broadcast, a constructor, operator= or resize, then every existing grid can still be used and destroyed without undefined behaviour, its cells hold old or new elements, no storage is lost; a call during which nothing throws has its usual effect.", "quantifier": "all cell types, all histories of grids, all calls, all points at which an exception is thrown", "why_tests_cant": "Tests use members that do not throw; what an interrupted call leaves behind shows only when a later call touches it.", "anchors": ["include/libflatarray/soa_grid.hpp:resize", "include/libflatarray/soa_grid.hpp:init", "include/libflatarray/soa_grid.hpp:copy_in", "include/libflatarray/soa_grid.hpp:destroy_and_deallocate", "include/libflatarray/soa_grid.hpp:broadcast", "include/libflatarray/detail/construct_functor.hpp"]}
{"id": "C87", "title": "An exception from user code leaves soa_vector objects usable and loses no storage", "statement": "If a constructor or assignment operator of a member, or the allocator, throws during set, push_back, pop_back, reserve, soa_vector(count, value) or operator=, then every vector can still be used as a list: set leaves one element mixed from old and new, a failed push_back or reserve leaves the elements as they were, no storage is lost; a call during which nothing throws has its usual effect.", "quantifier": "all cell types, all histories of vectors, all calls within the contract, all points at which an exception is thrown", "why_tests_cant": "Tests use members that do not throw; reserve is undefined only if the exception comes while the storage is rounded up.", "anchors": ["include/libflatarray/soa_vector.hpp:reserve", "include/libflatarray/soa_vector.hpp:push_back", "include/libflatarray/soa_vector.hpp:pop_back", "include/libflatarray/soa_vector.hpp:set", "include/libflatarray/soa_vector.hpp:resize", "include/libflatarray/soa_grid.hpp:resize"]}
{"id": "C88", "title": "An exception from user code leaves soa_array objects usable and loses no objects", "statement": "If a constructor or assignment operator of a member throws during a constructor, operator=, operator<<, push_back, load or element assignment of soa_array, then all arrays keep their sizes and capacities and can still be used; operator<<, push_back and load at the end leave all elements as they were; the others leave only elements of the target range mixed from old and new; no constructed object is left behind without its destructor ever being called; a call during which nothing throws has its usual effect.", "quantifier": "all cell types, all programs on any number of arrays, with an exception at any point of any number of calls", "why_tests_cant": "Tests use members that do not throw; what an interrupted call leaves behind shows only in later calls.", "anchors": ["include/libflatarray/soa_array.hpp:soa_array", "include/libflatarray/soa_array.hpp:operator=", "include/libflatarray/soa_array.hpp:operator<<", "include/libflatarray/soa_array.hpp:push_back", "include/libflatarray/soa_array.hpp:load", "include/libflatarray/soa_array.hpp:copy_in"]}
{"id": "C89", "title": "An exception from a member during load() or save() of a soa_grid leaves grid and buffer usable", "statement": "If an assignment operator of a class-type member throws while a grid loads cells from, or saves cells to, a buffer (for any list of streaks within the grid), the exception leaves load()/save() with no undefined behaviour; this happens exactly if the failing assignment is among the (cells in the streaks) x (class-type elements per cell) that the call performs. After load(), the buffer is unchanged, cells outside the streaks are unchanged and each addressed cell has every element either from before or from its place in the buffer. After save(), all grids are unchanged, and each place of the buffer has every element either from before or from the addressed cell; places behind the streaks are unchanged. The grids remain usable for any further program and release all their storage.", "quantifier": "for all cell types, program histories, grids, lists of streaks inside the grid (disjoint for load), buffers, and positions of the exception", "why_tests_cant": "The library's tests have no throwing member types and no fault injection; which element throws and how streaks interleave multiply to more cases than can be enumerated.", "anchors": ["include/libflatarray/soa_grid.hpp:load", "include/libflatarray/soa_grid.hpp:save", "include/libflatarray/detail/load_functor.hpp:load_functor", "include/libflatarray/detail/save_functor.hpp:save_functor"]}
{"id": "C90", "title": "Programs that catch exceptions of members can go on using their soa_grids", "statement": "A program on any number of soa_grids may catch exceptions that class-type members throw during any number of its calls of set, broadcast, load, save and operator= between grids of equal dimensions, and go on: none of its later calls is undefined behaviour; a call throws exactly if the failing assignment is among those it makes, and otherwise has its usual effect; an interrupted call leaves dimensions and untouched cells as they are and each addressed cell (or place of the buffer) with every element old or new; all later observations follow from that; no storage is left once all grids are destroyed. Exceptions in resize are different: afterwards already the destructor may be undefined behaviour.", "quantifier": "all cell types, all programs over any number of grids within their contract, any number of exceptions at any points of the named calls", "why_tests_cant": "The damage of an interrupted call shows only in combination with later calls; tests have no throwing members and cannot enumerate programs times exception points.", "anchors": ["include/libflatarray/soa_grid.hpp:set", "include/libflatarray/soa_grid.hpp:broadcast", "include/libflatarray/soa_grid.hpp:load", "include/libflatarray/soa_grid.hpp:save", "include/libflatarray/soa_grid.hpp:operator=", "include/libflatarray/soa_grid.hpp:resize"]}
{"id": "C91", "title": "Programs that catch exceptions of members and of the allocator can go on using their soa_vectors", "statement": "A program on any number of soa_vectors may catch exceptions that class-type members or the allocator throw during any number of its calls of set, pop_back, push_back, resize, reserve and soa_vector(n, value), as long as none is thrown while new storage is being filled with objects, and go on: none of its later calls is undefined behaviour and no storage is lost. An interrupted set leaves the element with every member element old or new; an interrupted pop_back has removed the element; an interrupted push_back has added nothing, though capacity() may have grown; interrupted resize, reserve and constructor calls have had no effect. set, pop_back, and push_back with room throw exactly if the failing assignment is among those of one element. Calls that enlarge or construct throw exactly if the first allocation fails or the failing member call is among those that build, copy and assign their elements. Exceptions while new storage is filled are different: already push_back itself is undefined behaviour then.", "quantifier": "all cell types, all one-dimensional size policies that grow, all programs over any number of vectors within their contract, any number of exceptions at any of the named moments", "why_tests_cant": "The damage of an interrupted call shows only in combination with later calls; tests have neither throwing members nor failing allocators and cannot enumerate programs times exception points.", "anchors": ["include/libflatarray/soa_vector.hpp:set", "include/libflatarray/soa_vector.hpp:pop_back", "include/libflatarray/soa_vector.hpp:push_back", "include/libflatarray/soa_vector.hpp:resize", "include/libflatarray/soa_vector.hpp:reserve", "include/libflatarray/soa_vector.hpp:soa_vector"]}
