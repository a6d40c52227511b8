{"id": "C01", "title": "Ghost and interior regions tile the array", "statement": "For every array shape with n points in front, in interior points and p points behind (all within int), in every dimension: range(RA::N), range(RA::IN) and range(RA::P) are consecutive, pairwise disjoint and together contain exactly the points of range(RA::ALL); their sizes are n, in, p and n+in+p; begin/end/last/bound/size agree with each other; and asking for a dimension that does not exist throws in checked mode.", "quantifier": "all shapes, all dimensions, all integer points, D1/D2/D3", "why_tests_cant": "the shape arguments range over all unsigned values; tests print a few shapes", "anchors": ["scr/liton_point_data/PointData_1D.hpp:SizeT", "scr/liton_point_data/PointData_2D.hpp:SizeT", "scr/liton_point_data/PointData_3D.hpp:SizeT"]}
{"id": "C02", "title": "is_overlap decides whether two index boxes meet", "statement": "For every two non-empty boxes, a.is_overlap(b) is true exactly when some index point lies in both, and it is symmetric. For empty boxes the claim fails: an empty box strictly inside another one is reported as overlapping.", "quantifier": "all pairs of boxes, D1/D2/D3", "why_tests_cant": "infinitely many pairs of boxes", "anchors": ["scr/liton_point_data/PointData_1D.hpp:RangeT::is_overlap", "scr/liton_point_data/PointData_2D.hpp:RangeT::is_overlap", "scr/liton_point_data/PointData_3D.hpp:RangeT::is_overlap"]}
{"id": "C03", "title": "overlap is the exact intersection", "statement": "In checked mode a.overlap(b) throws exactly when is_overlap is false; otherwise, and for non-empty boxes, the box returned contains an index point exactly when both a and b contain it. In unchecked mode it never throws.", "quantifier": "all pairs of boxes and all points, both build modes, D1/D2/D3", "why_tests_cant": "infinitely many pairs of boxes", "anchors": ["scr/liton_point_data/PointData_1D.hpp:RangeT::overlap", "scr/liton_point_data/PointData_2D.hpp:RangeT::overlap", "scr/liton_point_data/PointData_3D.hpp:RangeT::overlap"]}
{"id": "C04", "title": "cut_head, cut_tail and tran move exactly the named faces", "statement": "For every box and amounts for which no int overflows: tran(v) makes the box contain q exactly when it contained q-v before; cut_head(c) moves only the low faces by c and cut_tail(c) moves only the high faces; negative amounts grow the box; tran(-v) undoes tran(v), and successive cuts and translations add up.", "quantifier": "all boxes, all signed amounts, all points, D1/D2/D3", "why_tests_cant": "unbounded integer parameters", "anchors": ["scr/liton_point_data/PointData_1D.hpp:RangeT::{cut_head,cut_tail,tran}", "scr/liton_point_data/PointData_2D.hpp:RangeT::{cut_head,cut_tail,tran}", "scr/liton_point_data/PointData_3D.hpp:RangeT::{cut_head,cut_tail,tran}"]}
{"id": "C05", "title": "Range check accepts exactly the points that own storage", "statement": "In checked mode check_range(d, loc, ii, offset) returns normally exactly when ii+offset lies in [begin(d), end(d)+loc), and otherwise throws an error naming the dimension, the index and the legal range; in unchecked mode it never throws.", "quantifier": "all ranges, dimensions, locations, offsets and indices", "why_tests_cant": "index values are unbounded; off-by-one errors sit at the edges of every shape", "anchors": ["scr/liton_point_data/PointData_1D.hpp:RangeT::check_range", "scr/liton_point_data/PointData_2D.hpp:RangeT::check_range", "scr/liton_point_data/PointData_3D.hpp:RangeT::check_range"]}
{"id": "C06", "title": "mirror is the reflection in the chosen boundary point", "statement": "For every shape: mirror(d, fl, .) fixes the boundary point bound(d, RA::IN, fl), is its own inverse, reverses order, and maps each ghost point of that side into the interior (excluding the boundary point) whenever the ghost width is smaller than the interior width; if the ghost width is not smaller some ghost point is mapped outside the interior.", "quantifier": "all shapes, dimensions, boundary flags and indices whose arithmetic fits int", "why_tests_cant": "unbounded shapes", "anchors": ["scr/liton_point_data/PointData_1D.hpp:SizeT::mirror", "scr/liton_point_data/PointData_2D.hpp:SizeT::mirror", "scr/liton_point_data/PointData_3D.hpp:SizeT::mirror"]}
{"id": "C07", "title": "periodic is a translation by one period and both directions are inverse", "statement": "For every shape: periodic(d, FL::N, i) = i + (in-1) and periodic(d, FL::P, i) = i - (in-1); they undo each other, identify the first with the last interior point, and map each ghost point of their side into the interior whenever the ghost width is smaller than the interior width.", "quantifier": "all shapes, dimensions and indices whose arithmetic fits int", "why_tests_cant": "unbounded shapes", "anchors": ["scr/liton_point_data/PointData_1D.hpp:SizeT::periodic", "scr/liton_point_data/PointData_2D.hpp:SizeT::periodic", "scr/liton_point_data/PointData_3D.hpp:SizeT::periodic"]}
{"id": "C08", "title": "Flag and region conversions are consistent", "statement": "Complement of a flag or region is an involution that swaps N and P and fixes C / IN; flag-to-region and region-to-flag are mutually inverse; the complemented conversions are the composition of conversion and complement; on a region the flag's sign and offset are consistent (N: -1/0, C: 0/0, P: +1/1).", "quantifier": "all flags and regions", "why_tests_cant": "finite domain, proved exhaustively", "anchors": ["scr/liton_point_data/PointData.hpp:flra,FL,RA"]}
{"id": "C09", "title": "Checked element access accepts exactly the legal coordinates", "statement": "In checked mode, for an array in any state reachable through the API, element access either yields a reference into the live storage of that array or throws; it yields a reference exactly when the array holds data, the component number is below N, the flag of each dimension fits its location (C for center, N or P for half) and each index is in range for its flag; otherwise the error reported is the first failing check in that order. It never has undefined behaviour.", "quantifier": "all reachable array states, component numbers, indices, flags and locations, D0/D1/D2/D3", "why_tests_cant": "needs all histories and all indices", "anchors": ["scr/liton_point_data/PointData_1D.hpp:PointData::operator()", "scr/liton_point_data/PointData_2D.hpp:PointData::operator()", "scr/liton_point_data/PointData_3D.hpp:PointData::operator()", "scr/liton_point_data/PointData_0D.hpp:PointData::operator()"]}
{"id": "C10", "title": "The positive face of a cell is the negative face of the next cell", "statement": "For half-located dimensions, access at index i with flag P refers to the same storage as access at index i+1 with flag N, whenever the latter is legal; in particular an array of m cells has m+1 addressable faces.", "quantifier": "all shapes, indices and mixtures of locations, D1/D2/D3", "why_tests_cant": "infinitely many shapes and indices", "anchors": ["scr/liton_point_data/PointData_1D.hpp:PointData::operator()", "scr/liton_point_data/PointData_2D.hpp:PointData::operator()", "scr/liton_point_data/PointData_3D.hpp:PointData::operator()"]}
{"id": "C11", "title": "Distinct coordinates have distinct storage and fill the buffer", "statement": "In every successfully allocated array, the map from (component, storage slot in each dimension) to storage cell is a bijection onto the allocated cells: no two coordinates alias, none is outside the buffer, no cell is wasted.", "quantifier": "all shapes for which the element count fits 32 bits, all coordinates, all location combinations", "why_tests_cant": "pairwise over all coordinates of all shapes", "anchors": ["scr/liton_point_data/PointData_1D.hpp:PointData::alloc,operator()", "scr/liton_point_data/PointData_2D.hpp:PointData::alloc,operator()", "scr/liton_point_data/PointData_3D.hpp:PointData::alloc,operator()"]}
{"id": "C12", "title": "Storage is component-major and row-major", "statement": "data_pt(n) points at the first storage slot of component n and the element at slot offsets (a,b,c) from the low corner is at linear offset (a*size1+b)*size2+c; the components follow each other without gaps.", "quantifier": "all shapes, components and slots", "why_tests_cant": "layout must hold for every shape, external writers rely on it", "anchors": ["scr/liton_point_data/PointData_1D.hpp:PointData::data_pt", "scr/liton_point_data/PointData_2D.hpp:PointData::data_pt", "scr/liton_point_data/PointData_3D.hpp:PointData::data_pt"]}
{"id": "C13", "title": "Arrays behave as independent maps over any history", "statement": "For any number of arrays and any sequence of construct, alloc, realloc, clear, destroy, read, write, size query, data_pt, copy_from and read_plt calls in checked mode (sizes within int and element counts within 32 bits), no call has undefined behaviour and every result and exception is the one given by independent finite maps from coordinates to the last value written (or copied, or read from a file): a read returns the last write to that coordinate, a write to one array or coordinate changes nothing else.", "quantifier": "all operation sequences over all numbers of arrays, all memory-exhaustion patterns of the allocator (D1)", "why_tests_cant": "all histories and allocation failure points", "anchors": ["scr/liton_point_data/PointData_1D.hpp:PointData", "scr/liton_point_data/PointData_2D.hpp:PointData", "scr/liton_point_data/PointData_3D.hpp:PointData"]}
{"id": "C14", "title": "A run that never throws in checked mode gives the same results unchecked", "statement": "For every single API call and for every history: if in checked mode no range, flag, component or data check fires, then the unchecked build performs the same state changes and returns the same results.", "quantifier": "all histories", "why_tests_cant": "all histories in two build modes", "anchors": ["scr/liton_point_data/PointData_1D.hpp:_CHECK_POINTDATA_RANGE", "scr/liton_point_data/PointData_2D.hpp:_CHECK_POINTDATA_RANGE", "scr/liton_point_data/PointData_3D.hpp:_CHECK_POINTDATA_RANGE"]}
{"id": "C15", "title": "alloc accepts and rejects exactly as documented", "statement": "alloc on an array that already holds data throws and changes nothing; a shape with ghost points but no interior points in some dimension throws (naming the first such dimension) and changes nothing; a shape without any storage slot leaves the array empty without error; any other shape (element count within 32 bits, memory available) makes the array hold exactly that shape with every slot addressable.", "quantifier": "all shapes and prior states, D1/D2/D3", "why_tests_cant": "all shapes", "anchors": ["scr/liton_point_data/PointData_1D.hpp:PointData::alloc, SizeT::check", "scr/liton_point_data/PointData_2D.hpp:PointData::alloc, SizeT::check", "scr/liton_point_data/PointData_3D.hpp:PointData::alloc, SizeT::check"]}
{"id": "C16", "title": "Memory exhaustion during alloc", "statement": "1D: if the allocator fails, alloc throws and the array stays empty and usable, and nothing is leaked. 2D and 3D: this holds only if the first allocation is the one that fails; if a later one fails the call throws but leaves an array that reports data and size while element access is undefined behaviour in checked mode, and a sized constructor that fails this way leaks the storage.", "quantifier": "all shapes, all failure points of the allocator", "why_tests_cant": "needs every failure point of the allocator", "anchors": ["scr/liton_point_data/PointData_1D.hpp:PointData::alloc", "scr/liton_point_data/PointData_2D.hpp:PointData::alloc", "scr/liton_point_data/PointData_3D.hpp:PointData::alloc"]}
{"id": "C17", "title": "clear returns the array to the freshly constructed state", "statement": "clear on an array with data frees all its storage exactly once, after which size is zero, every access throws in checked mode and alloc is possible again; clear on an empty array throws and changes nothing.", "quantifier": "all reachable states, D1/D2/D3", "why_tests_cant": "all histories", "anchors": ["scr/liton_point_data/PointData_1D.hpp:PointData::clear", "scr/liton_point_data/PointData_2D.hpp:PointData::clear", "scr/liton_point_data/PointData_3D.hpp:PointData::clear"]}
{"id": "C18", "title": "realloc replaces the shape or leaves the array as it was", "statement": "realloc on an empty array or with an inadmissible shape throws and changes nothing (contents included); otherwise the old storage is freed and the array has exactly the new shape; if memory runs out the old contents are gone and (1D, or first allocation failing) the array is empty.", "quantifier": "all states, shapes and failure points", "why_tests_cant": "all histories and failure points", "anchors": ["scr/liton_point_data/PointData_1D.hpp:PointData::realloc", "scr/liton_point_data/PointData_2D.hpp:PointData::realloc", "scr/liton_point_data/PointData_3D.hpp:PointData::realloc"]}
{"id": "C19", "title": "No leak, no double free, no use after free", "statement": "Over any history in checked mode the live heap blocks are exactly those owned by the live arrays that hold data, each owned by exactly one array; when all arrays are destroyed nothing is left.", "quantifier": "all histories and (D1) all allocation failure patterns", "why_tests_cant": "all histories", "anchors": ["scr/liton_point_data/PointData_1D.hpp:PointData::{alloc,clear,~PointData}", "scr/liton_point_data/PointData_2D.hpp:PointData::{alloc,clear,~PointData}", "scr/liton_point_data/PointData_3D.hpp:PointData::{alloc,clear,~PointData}"]}
{"id": "C20", "title": "Element counts beyond 32 bits are not detected", "statement": "The guard 'total element count below 2^32' is necessary: a 2D shape whose slot count is a multiple of 2^32 is silently treated as empty by alloc, and there is a 1D shape (slot count itself fits) for which alloc succeeds or computes invalid pointers although the storage is smaller than the shape, so that a range-checked access is undefined behaviour.", "quantifier": "existence (witness) and necessity of the guard", "why_tests_cant": "sizes of this magnitude do not fit in a test machine", "anchors": ["scr/liton_point_data/PointData_1D.hpp:PointData::alloc size_point", "scr/liton_point_data/PointData_2D.hpp:PointData::alloc size_point", "scr/liton_point_data/PointData_3D.hpp:PointData::alloc size_point"]}
{"id": "C21", "title": "PD_For loops visit every point of the range exactly once in row-major order", "statement": "For every box with non-negative sizes and every loop body (which may throw), PD_For_1D/2D/3D and their N variants and the reduced-dimension variants of D2/D3 call the body exactly on the points of the box (times the component interval, outermost), each once, in lexicographic order, stopping at the first body that throws.", "quantifier": "all boxes, all bodies, all component intervals", "why_tests_cant": "bodies and boxes are unbounded", "anchors": ["scr/liton_point_data/PointData.hpp:PD_For_N", "scr/liton_point_data/PointData_1D.hpp:PD_For_*", "scr/liton_point_data/PointData_2D.hpp:PD_For_*", "scr/liton_point_data/PointData_3D.hpp:PD_For_*"]}
{"id": "C22", "title": "Loops over inverted ranges do not terminate normally", "statement": "If a range has end smaller than begin in the outermost dimension (for instance after cutting more than its size), a PD_For loop over it never returns normally: it runs past the range until the body throws or the index overflows (undefined behaviour). Component intervals with N_b > N_e wrap around 2^32.", "quantifier": "all such ranges and bodies", "why_tests_cant": "runs of 2^31 iterations", "anchors": ["scr/liton_point_data/PointData_1D.hpp:PD_For_*", "scr/liton_point_data/PointData_2D.hpp:PD_For_*", "scr/liton_point_data/PointData_3D.hpp:PD_For_*"]}
{"id": "C23", "title": "PD_Reduce combines the initial value twice", "statement": "For every box, function and reducer, PD_Reduce_* leaves in the result reduce(fold of the function values starting from the initial value, initial value): every point contributes exactly once in row-major order, and the initial value enters twice. Hence the sum over the box is right exactly when the initial value is 0 and the product exactly as initial^2 * product, while max and min give the max/min of the initial value and all values.", "quantifier": "all boxes, functions, reducers, initial values", "why_tests_cant": "all functions and boxes; tests use neutral initial values", "anchors": ["scr/liton_point_data/PointData.hpp:PD_Reduce_N,PD_RF_*", "scr/liton_point_data/PointData_1D.hpp:PD_Reduce_*", "scr/liton_point_data/PointData_2D.hpp:PD_Reduce_*", "scr/liton_point_data/PointData_3D.hpp:PD_Reduce_*"]}
{"id": "C24", "title": "copy_from copies exactly the aligned overlap and nothing else", "statement": "copy_from(pd, R, r, I, i) (per dimension) sets, for each component and each storage slot q of the box {q in R and q-I+i in r} (widened by one slot at the high end in half-located dimensions), the destination slot q to the value that the source slot q-I+i had before the call, and changes no other slot of any array; nothing else of either array changes.", "quantifier": "all shapes, boxes, anchor points, contents, D1/D2/D3, source different from destination or accepted self copy", "why_tests_cant": "all boxes and alignments", "anchors": ["scr/liton_point_data/PointData_1D.hpp:PointData::copy_from", "scr/liton_point_data/PointData_2D.hpp:PointData::copy_from", "scr/liton_point_data/PointData_3D.hpp:PointData::copy_from"]}
{"id": "C25", "title": "Region-tag copies are memory safe in checked mode, except onto or from an array without data when all dimensions are half-located", "statement": "In checked mode copy_from with region tags, for any two arrays in any reachable state (not left half made by a failed allocation), any tags and any anchors (indices or boundary flags) whose arithmetic fits int, either throws without changing anything or copies exactly the aligned overlap within the storage of both arrays; it never has undefined behaviour. The condition is that both arrays hold data, or both hold none, or at least one dimension is center-located. Without that condition the claim is false: with only half-located dimensions and exactly one empty array there is a call with undefined behaviour in checked mode.", "quantifier": "all reachable states, tags, anchors", "why_tests_cant": "all states and anchors", "anchors": ["scr/liton_point_data/PointData_1D.hpp:PointData::copy_from (tag overloads)", "scr/liton_point_data/PointData_2D.hpp:PointData::copy_from (tag overloads)", "scr/liton_point_data/PointData_3D.hpp:PointData::copy_from (tag overloads)"]}
{"id": "C26", "title": "The self-copy guard is sound but not complete", "statement": "In checked mode, when source and destination are the same array and copy_from returns normally, the slots read and the slots written are disjoint, so the result equals a copy from a snapshot. The guard is conservative: there are self copies with disjoint zones that it rejects.", "quantifier": "all boxes, anchors, locations", "why_tests_cant": "all boxes and alignments", "anchors": ["scr/liton_point_data/PointData_1D.hpp:PointData::copy_from guard", "scr/liton_point_data/PointData_2D.hpp:PointData::copy_from guard", "scr/liton_point_data/PointData_3D.hpp:PointData::copy_from guard"]}
{"id": "C27", "title": "Explicit-range copies are not range checked", "statement": "copy_from with explicit ranges that leave the allocated storage is undefined behaviour even in checked mode: there are such calls for 2D arrays, and for 1D arrays every accepted copy whose aligned overlap is not inside both arrays is undefined. It is safe under the condition that the aligned overlap lies inside both arrays.", "quantifier": "existence (2D witness), all 1D calls, and sufficiency of the condition for 1D/2D/3D", "why_tests_cant": "undefined behaviour cannot be tested", "anchors": ["scr/liton_point_data/PointData_1D.hpp:PointData::copy_from (RangeT overloads)", "scr/liton_point_data/PointData_2D.hpp:PointData::copy_from (RangeT overloads)", "scr/liton_point_data/PointData_3D.hpp:PointData::copy_from (RangeT overloads)"]}
{"id": "C28", "title": "Flag-anchored copies align the named corners", "statement": "copy_from(..., FL::N) aligns the low ends and FL::P aligns the high ends of the two ranges in that dimension, so that the copied box has the smaller of the two extents and sits at that end of the destination range.", "quantifier": "all ranges and flags", "why_tests_cant": "all ranges", "anchors": ["scr/liton_point_data/PointData_1D.hpp:PointData::copy_from (flag overloads)", "scr/liton_point_data/PointData_2D.hpp:PointData::copy_from (flag overloads)", "scr/liton_point_data/PointData_3D.hpp:PointData::copy_from (flag overloads)"]}
{"id": "C29", "title": "disp_data lists every stored value exactly once in order", "statement": "disp_data prints, for an array whose slots are all written, every storage slot including ghost points and the extra half point exactly once, in the documented order (1D: one line per slot with the N components; 2D/3D: per component, row-major with line breaks). A slot never written makes the call undefined. An array without data prints no element when some dimension is center-located; when all dimensions are half-located the call is undefined, in checked mode too.", "quantifier": "all shapes and contents", "why_tests_cant": "all shapes", "anchors": ["scr/liton_point_data/PointData_1D.hpp:PointData::disp_data", "scr/liton_point_data/PointData_2D.hpp:PointData::disp_data", "scr/liton_point_data/PointData_3D.hpp:PointData::disp_data"]}
{"id": "C30", "title": "0D arrays are N independent cells", "statement": "A 0D array accepts exactly component numbers below N in checked mode, and reads return the last write to that component over any history; N = 0 is rejected at construction. Unchecked, component numbers below N behave the same and all others are undefined. disp_data lists the components in order.", "quantifier": "all N, histories", "why_tests_cant": "all histories", "anchors": ["scr/liton_point_data/PointData_0D.hpp"]}
{"id": "C31", "title": "Output zone size is the number of sampled points", "statement": "For every zone description with positive Skip and non-negative Begin and End for which it does not throw, the real size in each direction is the number of indices Begin, Begin+Skip, Begin+2*Skip, ... below Max-End, at least 1; the real dimension counts the directions with more than one such index; it throws exactly when some Max or Skip is zero or Begin+End >= Max. Negative Skip is accepted although the message says it must be positive. get_real_max returns these sizes by direction, get_real_max_C in the order of C indices, get_real_dim the real dimension; a direction that is not there is undefined.", "quantifier": "all zone descriptions within int", "why_tests_cant": "all parameter combinations", "anchors": ["scr/liton_ordered_tec/ordered_tec.cpp:TEC_ZONE::gather_real_size"]}
{"id": "C32", "title": "The written block is the strided sub-box of the data", "statement": "For every zone description as above (index products within int) and every data block, element (a,b,c) (first index fastest) of the block written for a variable is element (Begin0+a*Skip0, Begin1+b*Skip1, Begin2+c*Skip2) of the user's array, for all three code paths (no skip/no cut, cut only, skip), and no byte outside the user's Max0*Max1*Max2 elements is read.", "quantifier": "all zone descriptions, element sizes, contents", "why_tests_cant": "all strides and sizes, three code paths must agree", "anchors": ["scr/liton_ordered_tec/ordered_tec.cpp:TEC_ZONE::make_buf,realise_buf"]}
{"id": "C33", "title": "Recorded minimum and maximum are the true extrema", "statement": "For every data block without NaN and every element type, the recorded min and max are elements of the block and bound all of it. With a NaN in the data the claim fails (witness).", "quantifier": "all non-empty data blocks, both parities of length", "why_tests_cant": "all blocks", "anchors": ["scr/liton_ordered_tec/ordered_tec.cpp:get_minmax,TEC_DATA::minmax"]}
{"id": "C34", "title": "The .plt file is a parseable record of the file description", "statement": "Reading the bytes written by write_plt with an independent reader of the Tecplot layout recovers file type, title, variable names, for each zone its name, strand, solution time, real sizes and auxiliary pairs, the file's auxiliary pairs, and for each zone and variable the data type, min, max and data block, provided strings contain no NUL character and the numbers and sizes fit their types.", "quantifier": "all file descriptions", "why_tests_cant": "all descriptions; needs a parser inverse argument", "anchors": ["scr/liton_ordered_tec/ordered_tec.cpp:TEC_FILE::write_plt*,TEC_ZONE::write_plt*"]}
{"id": "C35", "title": "Logged file positions point at the data", "statement": "After write_plt, for each zone and variable the log's position is the byte offset in the file where exactly the written block of that variable starts, and the logged type and size are those of the data.", "quantifier": "all file descriptions", "why_tests_cant": "all layouts", "anchors": ["scr/liton_ordered_tec/ordered_tec.cpp:TEC_ZONE::write_plt_data"]}
{"id": "C36", "title": "write_plt followed by read_plt reproduces the interior", "statement": "For every 1D/2D/3D array of float or double, at any locations, whose zone takes Max/Begin/End from its shape (a half dimension having one slot more than cells), writing a plt file and reading the variable back with the returned log into a component of an array of the same number of dimensions with at least that interior makes every point of the target in the box at the low corner of the interior equal to the source's point (converted to the target's element type), and leaves every other point, component and array unchanged.", "quantifier": "all shapes, locations, contents, numbers of variables, zones and components, source and target element types", "why_tests_cant": "all shapes and contents", "anchors": ["scr/liton_point_data/PointData_1D.hpp:PointData::read_plt", "scr/liton_point_data/PointData_2D.hpp:PointData::read_plt", "scr/liton_point_data/PointData_3D.hpp:PointData::read_plt", "scr/liton_ordered_tec/ordered_tec.cpp"]}
{"id": "C37", "title": "A failing read_plt changes nothing", "statement": "With a log as write_plt makes it, read_plt throws, leaving every array unchanged, when the component (checked mode) or zone number is too large, when the zone's size is below one or exceeds the interior in some dimension, when the variable name is unknown, when memory is exhausted, when the file cannot be opened or is too short, or when the data type is neither float nor double; otherwise it overwrites exactly the low corner box of that component with the stored values. With a log that has fewer data entries than variables, and in unchecked mode with a component number out of range, it is undefined behaviour.", "quantifier": "all logs meeting the well-formedness that write_plt establishes, all files, arrays and fault combinations", "why_tests_cant": "all fault combinations", "anchors": ["scr/liton_point_data/PointData_1D.hpp:PointData::read_plt", "scr/liton_point_data/PointData_2D.hpp:PointData::read_plt", "scr/liton_point_data/PointData_3D.hpp:PointData::read_plt"]}
{"id": "C38", "title": "Auxiliary data is insert-once and retrievable", "statement": "add_auxiliary_data returns true and stores the pair exactly when the name is new, and otherwise returns false and keeps the old value; lookups return the first value stored and throw for unknown names; output is in strictly increasing name order.", "quantifier": "all sequences of insertions", "why_tests_cant": "all histories", "anchors": ["scr/liton_ordered_tec/ordered_tec.cpp:add_auxiliary_data", "scr/liton_ordered_tec/ordered_tec.h:get_auxiliary_data"]}
{"id": "C39", "title": "Echo modes", "statement": "set_echo_mode sets the flags of the file to the documented patterns for brief/full/simple/none, to the given bits for a bit string, leaves them for 'leave', and throws without changing anything for any other text; then it does the same for every zone with the second text. A second text that is not accepted throws after the file's flags were changed, and is not noticed when the file has no zone: the change is not all-or-nothing.", "quantifier": "all pairs of strings, all files", "why_tests_cant": "all strings", "anchors": ["scr/liton_ordered_tec/ordered_tec.cpp:echo_mode,set_echo_mode"]}
{"id": "C40", "title": "Log texts contain each zone exactly once and never run past the zones", "statement": "After write_plt, write_echo/write_json/write_xml of the file log emit the text of each zone exactly once, in order, at the place reserved for it, and never step past the last zone; after an exception the texts can be printed as well, JSON and XML being empty.", "quantifier": "all file descriptions, whatever the texts in it contain", "why_tests_cant": "all numbers of zones", "anchors": ["scr/liton_ordered_tec/ordered_tec.cpp:TEC_FILE_LOG::write_*,gen_*"]}
{"id": "C41", "title": "Writing is defined exactly for short texts", "statement": "The echo, JSON and XML logs are formatted into buffers of 100 and 200 bytes: for an accepted description that can be opened and allocated, write_plt returns when every formatted line is below the stated bounds, and is undefined behaviour as soon as one path, title, variable, zone name or auxiliary value is longer.", "quantifier": "all file descriptions", "why_tests_cant": "undefined behaviour cannot be tested", "anchors": ["scr/liton_ordered_tec/ordered_tec.cpp:gen_json,gen_xml"]}
{"id": "C42", "title": "What write_plt leaves behind", "statement": "A refused description or a file that cannot be opened gives an exception, recorded in the log, and nothing is created on disk; after a normal return the file is closed and every temporary buffer is freed; but when the buffer of the k-th variable of a zone cannot be allocated, the exception leaves the file open, the k buffers allocated before it for that zone live, and the log's Error empty.", "quantifier": "all file descriptions, all patterns of failing allocations", "why_tests_cant": "needs fault injection at every allocation of every description", "anchors": ["scr/liton_ordered_tec/ordered_tec.cpp:TEC_FILE::write_plt", "scr/liton_ordered_tec/ordered_tec.cpp:TEC_ZONE::make_buf,write_plt_data"]}
{"id": "C43", "title": "A log written as XML is read back", "statement": "After write_plt, last_log.write_xml(depth) into a file and read_xml(load_xml(doc, file, \"File\")) of a new TEC_FILE_LOG give a log with the same path, name, title, variables, type, auxiliary data and time text, and zone by zone the same name, strand, sizes, skips, begins, ends, dimensions, auxiliary data and, variable by variable, the same type, element size and file position; times, minima and maxima come back with a relative error of at most 10^-6 (the time used with an absolute error of 10^-5), special values exactly. This needs names of variables and auxiliary data to be XML names and the other texts to be free of NUL, carriage return, & and < and not blank: a variable called \"u v\" makes the file unreadable, a title \"a &lt; b\" comes back as \"a < b\", and a solution time of 1/3 does not come back exactly.", "quantifier": "all file descriptions with such texts, all indentation depths, all times", "why_tests_cant": "depends on every printed digit string of a double and on every text that can occur in the description", "anchors": ["scr/liton_ordered_tec/ordered_tec.cpp:TEC_FILE_LOG::write_xml,read_xml", "scr/liton_ordered_tec/ordered_tec.cpp:TEC_ZONE_LOG::read_xml", "scr/liton_cpp_snippets/lion_snippets.hpp:liton_sp::xml::load_xml"]}
{"id": "C44", "title": "Data can be read with the log that came back", "statement": "read_plt behaves the same with a log and with the log read back from its XML; so an array written with write_plt can be restored in another program from the .plt file and the XML file alone: the target gets exactly the interior of the source, element by element, and nothing else changes.", "quantifier": "all pairs of reachable arrays of any class and element type float or double, all zones and variables, all descriptions whose texts XML keeps", "why_tests_cant": "composition of four components over all sizes and contents", "anchors": ["scr/liton_point_data/PointData_1D.hpp:read_plt", "scr/liton_ordered_tec/ordered_tec.cpp:TEC_FILE_LOG::read_xml"]}
{"id": "C45", "title": "Blank texts make the XML log unreadable", "statement": "If the title, the path, the time text, a zone name or an auxiliary value is empty or consists of blanks only, write_plt and write_xml succeed, but read_xml of the file written is undefined (a std::string is made from a null pointer).", "quantifier": "all file descriptions whose texts are otherwise kept by XML", "why_tests_cant": "undefined behaviour may look like success in a test; holds for every position of the blank text", "anchors": ["scr/liton_ordered_tec/ordered_tec.cpp:TEC_FILE_LOG::read_xml", "scr/liton_ordered_tec/ordered_tec.cpp:TEC_ZONE_LOG::read_xml"]}
{"id": "C46", "title": "A truncated XML log is never taken for a log", "statement": "If the XML file was cut short anywhere, so that more than trailing blanks is missing, load_xml throws: no log is read from it and nothing undefined happens.", "quantifier": "all file descriptions, all depths, all positions of the cut", "why_tests_cant": "every position of every file; each cut is a different text for the parser", "anchors": ["scr/liton_cpp_snippets/lion_snippets.hpp:liton_sp::xml::load_xml", "scr/tinyxml2/tinyxml2.cpp:XMLDocument::Parse"]}
{"id": "C47", "title": "Values loaded by read_plt stay until overwritten", "statement": "In any legal checked-mode program, if read_plt succeeds on component nn of an array, then a later operator() access to any slot of the low corner box of that component returns the value stored in the file at that position, provided no call in between touches that component of that slot; calls on other arrays, other components or slots, refused calls and further read_plt calls outside the box do not matter.", "quantifier": "all programs before and after the call, all logs, files, arrays, memory-exhaustion patterns", "why_tests_cant": "all histories around the call", "anchors": ["scr/liton_point_data/PointData_1D.hpp:PointData::read_plt", "scr/liton_point_data/PointData_2D.hpp:PointData::read_plt", "scr/liton_point_data/PointData_3D.hpp:PointData::read_plt"]}
{"id": "C48", "title": "A loop of element assignments does exactly the assignments of the range, in order", "statement": "Let PD_For_1D/2D/3D or PD_For_N_1D/2D/3D run over a valid range with a body that assigns to one element (named by the loop indices) a value computed from other elements. If all elements named exist, no element is assigned twice, and each element used was written before the loop or is assigned at an earlier point (first index outermost), then the loop returns without exception or undefined behaviour with and without _CHECK_POINTDATA_RANGE; each assigned element holds the function of what its sources held at its turn (the new value for elements assigned earlier, the old value otherwise); every other element of every array keeps its value; no array object changes.", "quantifier": "all reachable states, all ranges, all element names incl. half-location flags and ghost points, all functions, both modes", "why_tests_cant": "all sizes, all stencils, in-place dependencies and arrays of any class in one memory", "anchors": ["scr/liton_point_data/PointData_1D.hpp:PD_For_1D", "scr/liton_point_data/PointData_2D.hpp:PD_For_2D", "scr/liton_point_data/PointData_3D.hpp:PD_For_3D", "scr/liton_point_data/PointData_3D.hpp:PD_For_N_3D"]}
{"id": "C49", "title": "Reductions over array elements give the fold of the stored values", "statement": "If every element named by the body of PD_Reduce_1D/2D/3D or PD_Reduce_N_1D/2D/3D holds a value, the reduction gives exactly the fold of the computed values over the points of the range in order, starting from the initial value and combined with it once more at the end; if the reducer throws or is undefined, so is the reduction; no array and no element changes.", "quantifier": "all reachable states, ranges, reducers, element expressions, both modes", "why_tests_cant": "all sizes and reducers", "anchors": ["scr/liton_point_data/PointData_1D.hpp:PD_Reduce_1D", "scr/liton_point_data/PointData_2D.hpp:PD_Reduce_2D", "scr/liton_point_data/PointData_3D.hpp:PD_Reduce_3D"]}
{"id": "C50", "title": "The 1D heat example computes the mirrored explicit scheme", "statement": "For 2 <= N <= 2^30 and enough memory, Example_D1_heat runs without exception or undefined behaviour with and without range checks; after k passes of the time loop u(0,i) holds, for 0 <= i < N, the k-fold iterate of the explicit step (the stencil with mirrored neighbours at both ends, then the update) applied to the initial function, and u(1,i) the exact solution at x(0,i).", "quantifier": "all N, numbers of repetitions and passes, all arithmetics", "why_tests_cant": "all grid sizes and step counts", "anchors": ["test/Example_D1_heat/Example_D1_heat.cpp:main", "scr/liton_point_data/PointData_1D.hpp:SizeT::mirror", "scr/liton_point_data/PointData_1D.hpp:PD_For_1D"]}
{"id": "C51", "title": "The 2D heat example computes the mirrored explicit scheme", "statement": "For Nx, Ny >= 2 with 2(Nx+2)(Ny+2) < 2^32 and enough memory, Example_D2_heat runs without exception or undefined behaviour with and without range checks; after k passes u(0,i,j) holds the k-fold iterate of the explicit step, with mirrored neighbours in the second dimension and negated mirrored neighbours in the first, and u(1,i,j) the exact solution at the point. The corner ghost points, which the program never writes, are never used.", "quantifier": "all Nx, Ny, numbers of repetitions and passes, all arithmetics", "why_tests_cant": "all grid sizes and step counts", "anchors": ["test/Example_D2_heat/Example_D2_heat.cpp:main", "scr/liton_point_data/PointData_2D.hpp:SizeT::mirror", "scr/liton_point_data/PointData_2D.hpp:PD_For_2D"]}
{"id": "C52", "title": "The integration example prints the sums of its arrays", "statement": "For 1 <= N < 2^31 - 1 and enough memory, Example_D1_integration runs without exception or undefined behaviour with and without range checks and puts out, for each repetition, the scaled sum of x(0,i) and the scaled sum of its roots over 0 <= i < N, each sum added in order of i.", "quantifier": "all N, numbers of repetitions, all arithmetics", "why_tests_cant": "all array sizes", "anchors": ["test/Example_D1_integration/Example_D1_integration.cpp:main", "scr/liton_point_data/PointData_1D.hpp:PD_Reduce_1D"]}
{"id": "C53", "title": "A second program goes on with the data of the first", "statement": "If a legal program wrote the interior of a component of one of its arrays as a variable of a zone and the log as XML, then another legal program with a big enough array of the same dimension can read the log with read_xml and load the variable with read_plt (both calls succeed and are legal), and after any further calls that do not touch a slot, operator() gives there the (converted) value that operator() gave in the first program.", "quantifier": "all pairs of programs, arrays of all classes, shapes, locations, files, zones, variables, allocation outcomes and continuations", "why_tests_cant": "two whole programs, the file and the log in between", "anchors": ["scr/liton_ordered_tec/ordered_tec.cpp:TEC_FILE::write_plt", "scr/liton_ordered_tec/ordered_tec.cpp:TEC_FILE_LOG::read_xml", "scr/liton_point_data/PointData_2D.hpp:PointData::read_plt"]}
{"id": "C54", "title": "Zones described by arrays", "statement": "The client code that sets Max, Begin and End of a zone from size(d, RA::ALL), size(d, RA::N) and size(d, RA::P) never throws, sets exactly the leading entries (last dimension first) and changes nothing else. A new zone so described takes the interior of the array exactly if no dimension is half-located.", "quantifier": "all reachable arrays of all classes, all zones, with and without range checks", "why_tests_cant": "the tests use centre-located arrays only", "anchors": ["test/Test_D2_tecfile/Test_D2_tecfile.cpp:main", "test/Test_D3_tecfile/Test_D3_tecfile.cpp:main", "scr/liton_point_data/PointData_2D.hpp:SizeT::size", "scr/liton_ordered_tec/ordered_tec.h:TEC_ZONE::Max_C"]}
{"id": "C55", "title": "Auxiliary data got as numbers and texts", "statement": "After any successful add_auxiliary_data of a finite number (below 10^190) and any further calls, get_auxiliary_data into a double gives a number within 10^-6 (plus 10^-15 of it), and the very same bits if six decimals describe the number; infinities and NaNs come back as 0. A text comes back as its first word, so whole exactly if it is one word; a blank text leaves the variable unchanged; the text of an integer comes back clamped as int and mod 2^32 as unsigned. The log read back from XML gives the same answers.", "quantifier": "all sequences of calls, names, texts and doubles", "why_tests_cant": "all bit patterns of a double and all texts", "anchors": ["scr/liton_ordered_tec/ordered_tec.h:TEC_FILE_BASE::get_auxiliary_data", "scr/liton_ordered_tec/ordered_tec.h:TEC_ZONE_BASE::get_auxiliary_data", "scr/liton_ordered_tec/ordered_tec.cpp:TEC_FILE::add_auxiliary_data"]}
{"id": "C56", "title": "Texts tell what they are about", "statement": "The what() of an exception thrown by a checked element access names the first thing wrong with it (no data, component, flag, index of which dimension), prints the offending argument, and the numbers it prints as range are exactly the arguments that would have been accepted. Two exceptions of the point-data classes with the same message are the same exception (same cause, same numbers). disp() of ranges, of sizes and of arrays determines the dimension, bounds, sizes, locations, number of components and element type name; disp_data() of int arrays of the same class and sizes determines every element.", "quantifier": "all programs, arrays, arguments, ranges, sizes and contents", "why_tests_cant": "injectivity over all numbers and contents; agreement of the printed range with the accepted arguments for all sizes", "anchors": ["scr/liton_point_data/PointData_1D.hpp:RangeT::check_range", "scr/liton_point_data/PointData_2D.hpp:RangeT::disp", "scr/liton_point_data/PointData_3D.hpp:PointData::disp", "scr/liton_point_data/PointData_3D.hpp:PointData::disp_data"]}
{"id": "C57", "title": "The JSON log is JSON", "statement": "For every accepted description whose names, path, title and auxiliary data have no quote, backslash or control character, write_json(depth) after write_plt gives one JSON document which says what the log says: every member in its order, texts and whole numbers exactly, extrema and solution times within half a millionth, seconds to five decimals. This needs the printed numbers to be finite, which they are if the data, solution times and time used are; otherwise the text is not JSON. Texts are not escaped: with a quote the file is not JSON, with a backslash it is not or says something else.", "quantifier": "all descriptions, zones, names, bit patterns of numbers and depths", "why_tests_cant": "no test parses the JSON; all texts and all numbers", "anchors": ["scr/liton_ordered_tec/ordered_tec.cpp:TEC_FILE_LOG::gen_json", "scr/liton_ordered_tec/ordered_tec.cpp:TEC_ZONE_LOG::gen_json", "scr/liton_ordered_tec/ordered_tec.cpp:TEC_FILE_LOG::write_json"]}
{"id": "C58", "title": "The screen shows what the log shows", "statement": "The argument echo of write_plt changes only the screen: with and without it the same outcome, file and log, and without it nothing is printed. With it a finished run prints exactly the lines which the flags of Echo_Mode ask for, file head, zones in their order, file end; write_echo of the log gives the same text if and only if no zone asks for Begin and End (one blank instead of three before End otherwise). A refused description or a file which cannot be opened prints nothing; out of memory in zone i prints the lines up to the head of zone i, and the log's echo has these lines. The line Dim, Real_Max lists the first Dim sizes, not the sizes other than 1.", "quantifier": "all descriptions, flags, names and surroundings", "why_tests_cant": "no test captures stdout; all 2^7 x 2^9 flags, zone counts and failures", "anchors": ["scr/liton_ordered_tec/ordered_tec.cpp:TEC_FILE::write_plt", "scr/liton_ordered_tec/ordered_tec.cpp:TEC_FILE::write_plt_head", "scr/liton_ordered_tec/ordered_tec.cpp:TEC_FILE::write_plt_data", "scr/liton_ordered_tec/ordered_tec.cpp:TEC_ZONE::write_plt_data", "scr/liton_ordered_tec/ordered_tec.cpp:TEC_FILE_LOG::write_echo"]}
{"id": "C59", "title": "The files of a log are complete, separate and can be read again later", "statement": "In every state a program can reach by write_plt, the nine write functions of logs and zone logs, and reading logs, whatever exceptions were caught on the way: write_echo(), write_json(depth), write_xml(depth) of a log leave exactly its text in (FilePath)/(FileName).txt, .json, .xml and change no other file and no log; if the file cannot be opened the exception names it and nothing changes. The data file and the three log files are four different files, shared with another description only if path/name is the same. If data and XML log were written and neither file is written by another call, the log can be read at any later time and its data file is the one written; so can the XML file of a zone. Not so: the depth is unchecked (negative or near INT_MAX is undefined behaviour); zone files are not in FilePath as documented but in the working directory; zones with the same name overwrite each other's file. A write_plt that is refused or cannot open its file changes no file, not even an older data file of that name, and leaves the error in the log; one that runs out of memory on the way destroys the older data file.", "quantifier": "all programs of such calls, descriptions, depths, zone counts and sets of files that cannot be opened", "why_tests_cant": "all orders of calls and interleavings over shared files; the tests write one file each", "anchors": ["scr/liton_ordered_tec/ordered_tec.cpp:TEC_FILE_LOG::write_echo,write_json,write_xml", "scr/liton_ordered_tec/ordered_tec.cpp:TEC_ZONE_LOG::write_echo,write_json,write_xml", "scr/liton_ordered_tec/ordered_tec.h:TEC_ZONE_LOG"]}
{"id": "C60", "title": "Output takes registered arrays by reference", "statement": "TEC_DATA keeps the pointer data_pt(n) gives, not the data. Whatever a program does after registering component n of an array (writing elements, copies, refused alloc and realloc, other arrays coming and going, other memory running out), as long as the elements live the pointer is data_pt(n) still, gives enough memory for a zone that takes the interior, and the file has the values the array has when write_plt is called: reading it back gives these, not those at the time of registration. If the elements are gone by then (clear, a realloc that is not refused even if it is to the same size, destruction), write_plt does not return normally; unless another reason makes it throw, its behaviour is undefined, it has no way to notice. A null pointer stays one: the description is refused even if the array is allocated later.", "quantifier": "all programs before and after registration, arrays of all classes and shapes, descriptions and other data in them, element types, contents of memory never assigned", "why_tests_cant": "the tests register and write at once; all interleavings of life times and calls, and undefined behaviour a test cannot observe", "anchors": ["scr/liton_ordered_tec/ordered_tec.h:TEC_DATA", "scr/liton_ordered_tec/ordered_tec.cpp:TEC_FILE::write_plt", "scr/liton_ordered_tec/ordered_tec.cpp:TEC_ZONE::make_buf", "scr/liton_point_data/PointData_1D.hpp:data_pt", "scr/liton_point_data/PointData_2D.hpp:data_pt", "scr/liton_point_data/PointData_3D.hpp:data_pt"]}
{"id": "C61", "title": "The data of a whole program can be saved and loaded", "statement": "A program saves any number of components of any of its arrays - the interior of each as a variable of some zone - with one write_plt and the XML log. Another program with big enough arrays reads the log and calls read_plt once for each, into different components. All calls succeed; afterwards every target slot gives the (converted) value its source gives, and every other slot, component and array what it gave before. In particular all components of an array, registered with data_pt(n) some time before write_plt, come back by a loop over the components.", "quantifier": "both programs, arrays of all classes, locations and shapes, number and order of the variables and zones, list of loads, element types, files, log texts", "why_tests_cant": "the tests load one variable; a later load must not spoil an earlier one whatever kinds, shapes, zones and order there are", "anchors": ["scr/liton_point_data/PointData_1D.hpp:read_plt", "scr/liton_point_data/PointData_2D.hpp:read_plt", "scr/liton_point_data/PointData_3D.hpp:read_plt", "scr/liton_ordered_tec/ordered_tec.cpp:TEC_FILE::write_plt", "scr/liton_ordered_tec/ordered_tec.cpp:TEC_FILE_LOG::read_xml"]}
{"id": "C62", "title": "Example_D2_heat leaves the values of its scheme in its file", "statement": "The program of test/Example_D2_heat, which registers its arrays for output before it computes and calls write_plt and write_xml at the end, ends without exception and leaves a Tecplot file whose only zone has Nx by Ny points and the variables x, y, u1 and u2: the coordinates, the values of the finite difference scheme after the steps taken, and the exact solution, every one at its place, and no ghost cells. No file but the two written changes. Another program that reads the log and calls read_plt for one of these variables gets these values in its array and nothing else changes.", "quantifier": "all mesh sizes that fit, numbers of steps and repetitions, number types with their operations and encodings, initial and exact functions, previous contents of the disk, and all reachable states of the reading program with an array of two dimensions that is big enough", "why_tests_cant": "the example is run by hand on one mesh and its picture is looked at; that addresses taken before the computation still give the final values at the right places depends on every part of the library", "anchors": ["test/Example_D2_heat/Example_D2_heat.cpp:main", "scr/liton_point_data/PointData_2D.hpp:data_pt", "scr/liton_ordered_tec/ordered_tec.cpp:TEC_FILE::write_plt", "scr/liton_ordered_tec/ordered_tec.cpp:TEC_FILE_LOG::write_xml", "scr/liton_ordered_tec/ordered_tec.cpp:TEC_FILE_LOG::read_xml", "scr/liton_point_data/PointData_2D.hpp:read_plt"]}
{"id": "C63", "title": "Printed arrays of floating point numbers", "statement": "disp_data of an array of double or float prints every element with up to six digits, without a comma, so that the element reads back with a relative error of at most one in a hundred thousand; NaN and infinities read back as themselves. If disp_data gives the same characters for two arrays of the same class and sizes, every pair of elements was printed with the same text, so both are close to one number. A number written in the source with up to six digits reads back from the print as the very same double, and a whole number of up to six digits is printed as the int would be. More does not hold: different doubles may print alike.", "quantifier": "all element types and ways of printing them without a comma, all reachable arrays of all classes (0D to 3D), all bit patterns of double and float, all decimal numbers of up to six digits with exponents from -300 to 300", "why_tests_cant": "the tests look at the print of a few small integers; 2^64 doubles, rounding up to the next power of ten, the change of style at 10^-5 and 10^6 and the dropped zeros cannot be enumerated", "anchors": ["scr/liton_point_data/PointData_0D.hpp:disp_data", "scr/liton_point_data/PointData_1D.hpp:disp_data", "scr/liton_point_data/PointData_2D.hpp:disp_data", "scr/liton_point_data/PointData_3D.hpp:disp_data"]}
{"id": "C64", "title": "Edited XML logs", "statement": "A log kept as XML may be re-indented, reordered and annotated: read_xml gives the same log from every layout of the document (white space, either kind of quotes, entities, character references in decimal or hexadecimal, CDATA sections, <a/> or <a></a>, byte order mark, declaration) and after every change of what it does not ask for: comments, further attributes and elements, the order of attributes and of the children of File and Zone, the names of the elements in Zones, Datas and the triples. So the XML file written after write_plt still gives a log equal to the log of write_plt in all that counts. Only a comment in front of a text is not harmless: it makes read_xml undefined.", "quantifier": "all documents built from elements, attributes, texts, comments, CDATA sections and unknown nodes in all their layouts, all finite sequences of edits at any depth, all files, zones and environments for which C43 holds", "why_tests_cant": "the tests read back only the very file that has been written; the layouts of a document and the sequences of edits are infinitely many", "anchors": ["scr/liton_ordered_tec/ordered_tec.cpp:TEC_FILE_LOG::read_xml", "scr/liton_ordered_tec/ordered_tec.cpp:TEC_ZONE_LOG::read_xml", "scr/liton_cpp_snippets/lion_snippets.hpp:load_xml", "scr/tinyxml2/tinyxml2.cpp:XMLDocument::Parse", "scr/tinyxml2/tinyxml2.cpp:XMLNode::ParseDeep"]}
{"id": "C65", "title": "A ring of arrays joined by copy_from computes what one circle would", "statement": "A periodic field may be cut into any number of arrays in a row, each with g >= 1 ghost points on both sides: fill the ghost points of each array from the interior of its neighbours by copy_from with region tags and boundary flags, the last array being the neighbour of the first, compute the new value at every interior point from the points at distance at most g, and repeat. After any number of passes every point holds what the same passes on one circle of all the points give, so neither the number of arrays, nor their widths, nor g, nor a ring of a single array copied onto itself shows in the result. It needs arrays at least as wide as the ghost zone: otherwise the program reads elements nobody has set; without ghost points copy_from throws.", "quantifier": "all numbers and widths of arrays, all g, element types, stencils of any number of points, initial values and numbers of passes, with and without range checks", "why_tests_cant": "the tests copy between two arrays of fixed sizes once; the claim is about all ways to cut a field into arrays and any number of passes", "anchors": ["scr/liton_point_data/PointData_1D.hpp:PointData::copy_from", "scr/liton_point_data/PointData_1D.hpp:PD_For_1D", "scr/liton_point_data/PointData_1D.hpp:SizeT::range", "scr/liton_point_data/PointData_1D.hpp:RangeT::overlap", "scr/liton_point_data/PointData_1D.hpp:PointData::operator()"]}
{"id": "C66", "title": "A grid of arrays joined by copy_from computes what one torus would, corners included", "statement": "A periodic field in one, two or three dimensions may be cut along every direction into any number of arrays, each with ghost points on all sides. Filling the ghost points by copy_from one direction after the other (all points in the directions already done, interior points in those still to come) fills edges and corners too: with any stencil that reaches at most the ghost width in every direction, diagonals included, after any number of passes every point holds what the same passes on one torus give. Every point of the torus is in one of the arrays, and neither the cut nor the ghost widths show in the result. It needs arrays at least as wide as the ghost zones: otherwise elements nobody has set are read.", "quantifier": "one to three dimensions, all numbers and widths of arrays and ghost widths per direction (sizes representable), element types, stencils, initial values and numbers of passes, with and without range checks", "why_tests_cant": "the tests copy between two arrays of fixed sizes once; the claim is about all grids, the filling of corners by successive exchanges, and any number of passes", "anchors": ["scr/liton_point_data/PointData_1D.hpp:PointData::copy_from", "scr/liton_point_data/PointData_2D.hpp:PointData::copy_from", "scr/liton_point_data/PointData_3D.hpp:PointData::copy_from", "scr/liton_point_data/PointData_3D.hpp:PD_For_3D", "scr/liton_point_data/PointData_3D.hpp:SizeT::range", "scr/liton_point_data/PointData_3D.hpp:RangeT::overlap", "scr/liton_point_data/PointData_3D.hpp:PointData::operator()"]}
{"id": "C67", "title": "Programs of exec_except report exactly what happened, and a call that throws counts as not made", "statement": "A program written as a sequence of exec_except calls always comes to its end: each block runs up to its first call that throws, the blocks after it run on, and for each block there is one line on the first stream and, exactly if it threw, one line with the same stamp and the message on the second. The two streams determine which blocks threw which exception with which numbers. A call that throws anything but std::bad_alloc (and is no constructor) changes nothing that can be looked at; if memory does not run out, striking all calls that threw from a program changes neither the results of the others nor of anything that comes later. For std::bad_alloc this is false: realloc loses the old contents. What is thrown and is no std::exception passes through unchanged, and nothing is written.", "quantifier": "all sequences of blocks of legal calls on any arrays, all times, random numbers, values and print functions; all patterns of memory failure for the first two parts", "why_tests_cant": "the tests run some 300 fixed blocks and a person reads the output; that no exception leaves a trace is a statement about all calls in all reachable states", "anchors": ["scr/liton_cpp_snippets/lion_snippets.hpp:debug::exec_except", "scr/liton_point_data/PointData_1D.hpp:PointData::operator()", "scr/liton_point_data/PointData_2D.hpp:PointData::alloc", "scr/liton_point_data/PointData_2D.hpp:PointData::realloc", "scr/liton_point_data/PointData_3D.hpp:PointData::copy_from", "scr/liton_point_data/PointData.hpp"]}
{"id": "C68", "title": "What read_xml makes of any XML document", "statement": "For every XML element, TEC_FILE_LOG::read_xml either gives the log that the element says, or its behaviour is undefined; it never throws. It is defined exactly if the element has what the log needs, in any order and among anything else (of several children with the same name the first counts, of several auxiliary pairs with the same name the last): an attribute FileName, texts for path, time, title, zone names and auxiliary values, elements for the variables and zones, decimal numbers that fit an int, exactly three numbers for each triple, and for each variable the five attributes; and if the texts fit the buffers of 200 characters. Only the time used and the type of the file may be left empty (0 and -1). Exceptions come only from load_xml: no such file, not XML, no element of the name asked for, each with its message. A log read from such a document, written with write_xml and read again says the same, provided its texts need no escapes; otherwise this is false.", "quantifier": "all element trees, all files, all paths; all logs read from them, all depths", "why_tests_cant": "the tests read one file written by the library itself; documents written or edited by others are unbounded in shape, and which of them are undefined is not observable by running", "anchors": ["scr/liton_ordered_tec/ordered_tec.cpp:TEC_FILE_LOG::read_xml", "scr/liton_ordered_tec/ordered_tec.cpp:TEC_ZONE_LOG::read_xml", "scr/liton_cpp_snippets/lion_snippets.hpp:liton_sp::xml::load_xml"]}
{"id": "C69", "title": "Logs read and written again do not drift", "statement": "A log that is written with write_xml, read with read_xml, written and read again, any number of times, with any indentation and under any names, is the same log after the first round as after all later ones; it says what the first log said, and write_xml and write_json make of it, byte for byte, the files they make of the first log. This holds for the logs of all files written by write_plt, and for logs read from any XML document, provided their texts need no escapes and are not blank and the time used is below 2^35 seconds. The reason is that a double printed with %le, scanned and printed again gives the same characters (for every double), and so does %.5lf below 2^35.", "quantifier": "all logs of written files, all logs read from documents, all numbers of rounds, all depths and paths, all doubles", "why_tests_cant": "one round on one file shows neither that rounding errors do not add up over rounds nor that no double exists whose seven digits change when they are read and printed again", "anchors": ["scr/liton_ordered_tec/ordered_tec.cpp:TEC_FILE_LOG::read_xml", "scr/liton_ordered_tec/ordered_tec.cpp:TEC_FILE_LOG::write_xml", "scr/liton_ordered_tec/ordered_tec.cpp:TEC_FILE_LOG::gen_xml", "scr/liton_ordered_tec/ordered_tec.cpp:TEC_ZONE_LOG::gen_xml", "scr/liton_ordered_tec/ordered_tec.cpp:TEC_FILE_LOG::gen_json"]}
{"id": "C70", "title": "Saving a loaded XML document keeps the document", "statement": "A document loaded with XMLDocument::LoadFile and written with XMLDocument::SaveFile, compact or not, loads again as the same document: the same elements, attributes, texts, comments, CDATA sections and declaration, with or without byte order mark, whatever the layout of the original file; and loading and saving again leaves the file as it is, byte for byte. So read_xml reads from a saved log what it reads from the original. Exceptions: blank texts and carriage returns that come from character references, texts outside of the elements, several declarations, and, unless compact, a text directly in front of an element: it gets the spaces of the indentation appended, so that it grows with every save. The logs of write_plt contain none of these.", "quantifier": "all texts that load, all trees that XML can express, of any depth; all values and names; both modes; any number of saves", "why_tests_cant": "the printer decides on line breaks and spaces by a state that depends on everything written before, and the parser on where they count; tests on sample documents show neither that no arrangement of texts, elements and comments is changed nor which ones are", "anchors": ["scr/tinyxml2/tinyxml2.cpp:XMLPrinter::OpenElement", "scr/tinyxml2/tinyxml2.cpp:XMLPrinter::CloseElement", "scr/tinyxml2/tinyxml2.cpp:XMLPrinter::PushText", "scr/tinyxml2/tinyxml2.cpp:XMLPrinter::PrintString", "scr/tinyxml2/tinyxml2.cpp:XMLDocument::SaveFile", "scr/tinyxml2/tinyxml2.cpp:XMLNode::ParseDeep"]}
{"id": "C71", "title": "What the reducers shipped with the library compute", "statement": "With any of the 13 PD_Reduce functions and values met in any order: PD_RF_SUM, PD_RF_PRO, PD_RF_MAX, PD_RF_MIN at int give the sum, product, maximum and minimum of the values together with the initial value (which sums and products count twice), and the _ABS versions those of the absolute values; the call is undefined exactly when an intermediate sum or product, or the absolute value of INT_MIN, does not fit. At float and double PD_RF_MAX, PD_RF_MIN and their _ABS versions give the greatest or least of the numbers that are not NaN: NaN values are passed over, and an initial value NaN hides all others. When two calls are defined the order of the values does not matter for the result (whether sums of int are defined may depend on it).", "quantifier": "all ranges without inverted dimension, all component intervals, all dimensions left out, all values and initial values (not negative for the _ABS versions), float and double bit patterns", "why_tests_cant": "the tests use a maximum over a few values of one sign; overflow, NaN, signed zeros and infinities, the order of the values and the role of the initial value need all lists of values", "anchors": ["scr/liton_point_data/PointData.hpp:PD_Reduce_N", "scr/liton_point_data/PointData.hpp:PD_RF_MAX_ABS", "scr/liton_point_data/PointData_2D.hpp:PD_Reduce_2D", "scr/liton_point_data/PointData_3D.hpp:PD_Reduce_N_3D"]}
{"id": "C72", "title": "Accuracy of sums of double", "statement": "A sum of n values of type double taken with PD_RF_SUM(double) and any of the PD_Reduce functions differs from the exact sum (initial value counted twice) by at most ((1+2^-53)^(n+1) - 1) times the sum of the absolute values, as long as this sum is not near the largest double; with PD_RF_SUM_ABS and an initial value that is not negative the relative error is at most (1+2^-53)^(n+1) - 1. Each addition gives a double no other double is nearer to the sum of the two numbers than. Sums of whole numbers (or of multiples of another power of two) below 2^53 are exact. A NaN among the values always shows in the sum. The order of the values may change the result.", "quantifier": "all ranges and component intervals, any number of values, all finite double values including denormal ones, any initial value", "why_tests_cant": "the rounding error depends on all values and their order; the tests compare a few sums that are exact", "anchors": ["scr/liton_point_data/PointData.hpp:PD_RF_SUM", "scr/liton_point_data/PointData.hpp:PD_RF_SUM_ABS", "scr/liton_point_data/PointData.hpp:PD_Reduce_N"]}
{"id": "C73", "title": "Settings kept in an XML file", "statement": "A path of names looked up with load_xml and get_xmlnode in an XML file, whatever its layout, leads to the first element with each name in turn; if there is one it is found, and otherwise the exception thrown names the first name that is missing and the element it is missing in. Nothing is undefined, whatever the file holds. An integer in the element found is read by QueryIntText as what it says, whatever follows it, and a decimal number by QueryDoubleText as the double nearest to it; an empty element leaves the default. Adding nodes and attributes to the file (no element in front of the first one with its name, nothing in front of a text) changes nothing that was found, nor does loading and saving the file. But a number that is not an integer is not refused by QueryIntText: 1e3 is read as 1.", "quantifier": "all XML documents in all layouts, all paths of any length, all integers and all decimal numbers with any number of digits and any exponent in the range of double, all sequences of additions to a file", "why_tests_cant": "documents, layouts and numerals are unbounded; correct rounding of decimal numbers fails only for rare inputs near the middle of two doubles", "anchors": ["scr/liton_cpp_snippets/lion_snippets.hpp:load_xml", "scr/liton_cpp_snippets/lion_snippets.hpp:check_xmlnode", "scr/liton_cpp_snippets/lion_snippets.hpp:get_xmlnode", "scr/tinyxml2/tinyxml2.cpp:QueryIntText", "scr/tinyxml2/tinyxml2.cpp:QueryDoubleText"]}
{"id": "C74", "title": "Accuracy of products of double", "statement": "A reduction with PD_RF_PRO(double) over any range returns a number with the sign of the exact product of the values and of the initial value (which enters twice), and its size is the exact one up to a factor between (1-2^-53)^(n+1) and (1+2^-53)^(n+1) for n values, provided that the product of the first k factors is zero or between 2^-1021 and 2^1022 in size for every k. With PD_RF_PRO_ABS the size is the same and the sign is that of the initial value. Each single step gives a double than which none is nearer, whatever the sizes, if there is no overflow. A NaN among the values gives NaN. But the order matters: 2^-1000, 2^-1000, 2^1000 give 0 and 2^-1000, 2^1000, 2^-1000 give 2^-1000.", "quantifier": "all reduction functions, all ranges, all lists of fewer than 2^52 values, all finite initial values", "why_tests_cant": "the error grows with the number of values, and rounding errors depend on all bits of all values", "anchors": ["scr/liton_point_data/PointData.hpp:PD_RF_PRO", "scr/liton_point_data/PointData.hpp:PD_RF_PRO_ABS", "scr/liton_point_data/PointData.hpp:PD_Reduce_N"]}
{"id": "C75", "title": "What exec_time measures", "statement": "exec_time(N, exp) with N > 0 runs exp exactly N times, one after the other, and returns the mean of the differences of clock() around the runs, in seconds, up to a factor between (1-2^-53)^(N+3) and (1+2^-53)^(N+3), provided the clock does not run backwards; the result is never negative, and zero only if the clock did not move in any of the runs. The first exception that exp throws is passed on, and exp is not run again. With N = 0 nothing is run and the result is NaN.", "quantifier": "all N, all expressions (which may have effects, throw, and read the clock themselves), all sequences of readings of the clock", "why_tests_cant": "the readings of the clock are not under the control of a test, and N and the effects of the expression are unbounded", "anchors": ["scr/liton_cpp_snippets/lion_snippets.hpp:exec_time"]}
{"id": "C76", "title": "What the integration example prints", "statement": "Example_D1_integration with N points, with real double arithmetic, writes in every repetition as its first number N/(2(N-1)) up to N+4 factors between 1-2^-53 and 1+2^-53. So for N up to 2^26 it is always larger than the integral 1/2 of x (all N points have the weight 1/(N-1)), and from 2000001 points on, for example with the 10000001 points in the file, the line printed is \"ans = 0.5\", right to all digits.", "quantifier": "all numbers of points and of repetitions, all patterns of memory failures that spare the two allocations", "why_tests_cant": "a test sees one number of points; the bound on the rounding errors of millions of additions holds for every number of points", "anchors": ["test/Example_D1_integration/Example_D1_integration.cpp:main", "scr/liton_point_data/PointData.hpp:PD_RF_SUM", "scr/liton_point_data/PointData_1D.hpp:PD_Reduce_1D"]}
{"id": "C77", "title": "The time loop of the heat examples ends, and after how many passes", "statement": "The endless loop of Example_D1_heat and Example_D2_heat is left by flowtime += dt; if (flowtime >= time_stop) break; in double. For every positive dt and time_stop with time_stop <= 2^50 dt it ends, whatever the passes do as long as they return: it ends after the first k for which the rounded sum of k steps has reached time_stop, the sum being k dt up to k factors between 1-2^-53 and 1+2^-53, and k - 1 < 2 time_stop / dt. (With dt = 2^-55 and time_stop = 1 the sum stays at 1/2 and the loop never ends.) So both programs end for every mesh (up to 2^25 points in one dimension), and u(0, ..) then holds the k-fold time step of the initial values, u(1, ..) the exact solution; step is k modulo 2^32, flowtime is at least time_stop, and each run shows at most 21 lines on the console. With the numbers in the files, Example_D1_heat writes \"time: 0.5\" and \"step: 6332575\", Example_D2_heat writes \"time: 0.100003\" and \"step: 25331\".", "quantifier": "all steps, end times, loop bodies, numbers of points and of repetitions, element types and arithmetic on the elements, all patterns of memory failures that spare the allocations", "why_tests_cant": "the loop is endless unless a sum of millions of rounded doubles reaches the end time; a test sees one mesh", "anchors": ["test/Example_D1_heat/Example_D1_heat.cpp:main", "test/Example_D2_heat/Example_D2_heat.cpp:main"]}
{"id": "C78", "title": "In exact arithmetic the heat examples keep the range of the values and conserve the heat", "statement": "Run with exact (rational) numbers, Example_D1_heat leaves in every u(0, i), after any number of passes of its time loop, a value between the least and the largest of the initial values, provided 0 <= a_hh dt <= 1/2 (it is 1/10 in the file); Example_D2_heat leaves values of size at most that of the initial values, provided a_hh_x dt and a_hh_y dt are not negative and their sum is at most 1/2. Example_D1_heat conserves the heat content u0/2 + u1 + ... + u(N-1)/2 exactly, for every step: this is what the mirrored boundary values are for. With a_hh dt = 1 the range is not kept.", "quantifier": "all numbers of points, of passes and of repetitions, all initial values and coefficients, all patterns of memory failures that spare the allocations", "why_tests_cant": "stability and conservation are statements about all initial data and all numbers of passes", "anchors": ["test/Example_D1_heat/Example_D1_heat.cpp:main", "test/Example_D2_heat/Example_D2_heat.cpp:main", "scr/liton_point_data/PointData_1D.hpp:mirror"]}
{"id": "C79", "title": "Example_D1_heat computed in double stays finite and bounded", "statement": "With every operation on the elements rounded as double does it, Example_D1_heat never produces an infinity or a NaN, and its values stay bounded: if all initial values have size at most m (m between 3*2^-1021 and 2^35), then after the k passes the program makes (at most 2^47 for up to 2^23 points) every u(0, i) has size at most m / (1 - k 2^-48), in particular at most 2 m. The same holds for any coefficients a_hh <= 2^50 and dt <= 4 with a_hh dt <= 1/2 and any k up to 2^47.", "quantifier": "all numbers of points up to 2^23, of repetitions, all initial values of double within the bound, all numbers of passes up to 2^47, all patterns of memory failures that spare the allocations", "why_tests_cant": "rounding errors accumulate over passes; no run settles all initial data and all numbers of points", "anchors": ["test/Example_D1_heat/Example_D1_heat.cpp:main", "scr/liton_point_data/PointData_1D.hpp:mirror"]}
{"id": "C80", "title": "Example_D2_heat computed in double stays finite and bounded", "statement": "With every operation on the elements rounded as double does it, Example_D2_heat never leaves an infinity or a NaN in u(0, i, j), and its values stay bounded: if all initial values have size at most m (m between 3*2^-1021 and 2^35), then after the k passes the program makes (at most 2^47 for every N it can allocate) every u(0, i, j) has size at most m / (1 - k 2^-48), in particular at most 2 m. The same holds for any coefficients a_hh_x, a_hh_y <= 2^50 and dt <= 4 with (a_hh_x + a_hh_y) dt <= 1/2 and any k up to 2^47.", "quantifier": "all N the arrays can hold, all repetitions, all initial values of double within the bound, all numbers of passes up to 2^47, all patterns of memory failures that spare the allocations", "why_tests_cant": "rounding errors accumulate over passes; no run settles all initial data and all numbers of points", "anchors": ["test/Example_D2_heat/Example_D2_heat.cpp:main", "scr/liton_point_data/PointData_2D.hpp:mirror"]}
{"id": "C81", "title": "Example_D1_heat computed in double keeps a uniform temperature exactly", "statement": "If all initial values of Example_D1_heat are the same number y (of size at most 2^900), then with every operation on the elements rounded as double does it, every u(0, i) is exactly y after the time loop: no rounding error appears, for the coefficients and the number of passes of the program (up to 2^23 points), and for any finite coefficients and any number of passes.", "quantifier": "all numbers of points, of passes and of repetitions, all finite coefficients, all uniform initial values up to the bound, all patterns of memory failures that spare the allocations", "why_tests_cant": "a test fixes a temperature, a number of points and of passes; the claim is that no rounding ever occurs", "anchors": ["test/Example_D1_heat/Example_D1_heat.cpp:main", "scr/liton_point_data/PointData_1D.hpp:mirror"]}
{"id": "C82", "title": "Mirror symmetry of Example_D1_heat: exact in exact arithmetic, not kept in double", "statement": "If the initial values of Example_D1_heat are symmetric about the middle (the value at point N-1-i equals that at point i, as for the cosine of the file), then with exact (rational) numbers every u(0, i) stays symmetric, after any number of passes and for any coefficients. With double arithmetic on the elements this is false: (a - 2 b) + c is rounded differently from (c - 2 b) + a, and one pass on 4 points with a_hh dt = 1/2 can leave different values at mirrored points.", "quantifier": "all numbers of points, of passes and of repetitions, all symmetric initial values and all coefficients, all patterns of memory failures that spare the allocations", "why_tests_cant": "a test compares one run with a tolerance; it cannot show that symmetry is exact in exact arithmetic nor that no tolerance of zero is justified in double", "anchors": ["test/Example_D1_heat/Example_D1_heat.cpp:main", "scr/liton_point_data/PointData_1D.hpp:mirror"]}
