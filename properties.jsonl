{"id": "C01", "title": "IBM decode is exact", "statement": "ibm2ieee (and float(IBMFloat)) of any four bytes returns a finite double whose value is exactly (-1)^s * M * 16^(E-64) / 2^24, where s is the top bit, E the next seven bits and M the low 24 bits; no rounding happens in any of the intermediate double operations, and every zero-mantissa word decodes to +0.0.", "quantifier": "all 2^32 four-byte words (and any longer buffer, whose first four bytes alone matter)", "why_tests_cant": "4 billion inputs and three chained double-precision operations; tests sample a handful of words", "anchors": ["segpy/ibm_float.py:ibm2ieee", "segpy/ibm_float.py:IBMFloat.__float__", "segpy/util.py:four_bytes"]}
{"id": "C02", "title": "IBM encode truncates toward zero to the best representable value", "statement": "When ieee2ibm(f) succeeds, the four bytes decode to a value v with the sign of f and |v| <= |f|, and no IBM single-precision value lies in (|v|, |f|]; if |f| is at least the smallest normal number then |f|-|v| < 2^-20 |f|.", "quantifier": "every finite double f for which ieee2ibm does not raise", "why_tests_cant": "2^64 doubles; hypothesis tests only check approximate closeness", "anchors": ["segpy/ibm_float.py:ieee2ibm", "segpy/ibm_float.py:IBMFloat.from_float"]}
{"id": "C03", "title": "IBM encode raises exactly the documented errors", "statement": "ieee2ibm raises ValueError exactly for NaN and infinities, OverflowError exactly for finite |f| > MAX_IBM_FLOAT, FloatingPointError exactly for 0 < |f| < 16^-64 * 2^-24, and otherwise returns exactly four bytes; +0.0 and -0.0 give four zero bytes.", "quantifier": "every IEEE-754 double including NaN, infinities, subnormals and both zeros", "why_tests_cant": "boundary between the error classes is at exact doubles that random testing does not hit", "anchors": ["segpy/ibm_float.py:ieee2ibm", "segpy/ibm_float.py:MAX_IBM_FLOAT", "segpy/ibm_float.py:MIN_IBM_FLOAT"]}
{"id": "C04", "title": "Bytes -> float -> bytes is normalisation", "statement": "ieee2ibm(ibm2ieee(b)) never raises and equals bytes(IBMFloat(b).try_normalize()) when b can be normalised or is already at the minimum exponent; in particular it is b itself for every normalised b and 00000000 for every zero; decoding the result gives the same double again.", "quantifier": "all four-byte words", "why_tests_cant": "needs all 2^32 words, including un-normalised and minimum-exponent ones", "anchors": ["segpy/ibm_float.py:ieee2ibm", "segpy/ibm_float.py:ibm2ieee", "segpy/ibm_float.py:IBMFloat.try_normalize"]}
{"id": "C05", "title": "IBM sample arrays are preserved byte for byte", "statement": "pack_ibm_floats(unpack_ibm_floats(buf, n)) == buf for every buffer of 4n bytes, including un-normalised values and non-canonical zeros; unpack yields n values.", "quantifier": "all n >= 0 and all buffers of length 4n", "why_tests_cant": "unbounded length and all bit patterns", "anchors": ["segpy/ibm_float_packer.py:pack_ibm_floats", "segpy/ibm_float_packer.py:unpack_ibm_floats", "segpy/ibm_float_packer.py:Packer"]}
{"id": "C06", "title": "IBM encode is monotone and odd", "statement": "If f <= g and both encode, the decoded values satisfy v(f) <= v(g); and encoding -f gives the word for f with only the sign bit flipped (f nonzero).", "quantifier": "all pairs of finite doubles", "why_tests_cant": "a relational property over pairs of doubles", "anchors": ["segpy/ibm_float.py:ieee2ibm"]}
{"id": "C07", "title": "normalize preserves value and normalises", "statement": "IBMFloat.normalize either returns an IBMFloat with the same exact value whose leading hex digit is non-zero (or canonical zero), or raises FloatingPointError, which happens exactly when the value is non-zero and smaller in magnitude than 16^-65; try_normalize never raises, preserves the value and is idempotent.", "quantifier": "all four-byte words", "why_tests_cant": "loop over mantissa shifts with exponent boundary; 2^32 inputs", "anchors": ["segpy/ibm_float.py:IBMFloat.normalize", "segpy/ibm_float.py:IBMFloat.try_normalize", "segpy/ibm_float.py:IBMFloat.is_subnormal"]}
{"id": "C08", "title": "IBMFloat == IBMFloat is numeric equality", "statement": "For IBMFloats x and y, x == y holds exactly when their numeric values are equal.", "quantifier": "all pairs of four-byte words", "why_tests_cant": "2^64 pairs; failing pairs are rare (two sub-normalisable numbers, or zeros of opposite sign)", "anchors": ["segpy/ibm_float.py:IBMFloat.__eq__"]}
{"id": "C09", "title": "IBMFloat compared with a float is numeric", "statement": "x == f (f a float) holds exactly when value(x) = f (never for NaN/inf), and x.as_integer_ratio() is the reduced fraction (positive denominator) equal to the exact value; <, <=, >, >= between IBMFloats agree with the order of exact values.", "quantifier": "all words, all doubles", "why_tests_cant": "infinite pairs; relies on exactness of decode", "anchors": ["segpy/ibm_float.py:IBMFloat.__eq__", "segpy/ibm_float.py:IBMFloat.as_integer_ratio", "segpy/ibm_float.py:IBMFloat.__lt__", "segpy/ibm_float.py:IBMFloat.__le__", "segpy/ibm_float.py:IBMFloat.__gt__", "segpy/ibm_float.py:IBMFloat.__ge__"]}
{"id": "C10", "title": "Truncation of an IBMFloat", "statement": "int(x) / math.trunc(x) is the integer part of the exact value (rounded toward zero).", "quantifier": "all four-byte words", "why_tests_cant": "all exponents and mantissas, including negative exponents where the mask arithmetic goes through floats", "anchors": ["segpy/ibm_float.py:IBMFloat.__trunc__", "segpy/ibm_float.py:IBMFloat.__int__"]}
{"id": "C11", "title": "ceil and floor of an IBMFloat", "statement": "math.ceil(x) is the least integer >= x and math.floor(x) the greatest integer <= x.", "quantifier": "all four-byte words", "why_tests_cant": "tests compare on sampled non-integers; the integral values are where the code goes wrong", "anchors": ["segpy/ibm_float.py:IBMFloat.__ceil__", "segpy/ibm_float.py:IBMFloat.__floor__"]}
{"id": "C12", "title": "Negation, absolute value and zero tests", "statement": "value(-x) = -value(x), value(abs(x)) = |value(x)|, -(-x) is x for non-zero x, abs is never negative, bool(x) is False exactly for value zero, zero_subnormal(x) is x for canonical words and zero otherwise.", "quantifier": "all four-byte words", "why_tests_cant": "2^32 words incl. non-canonical zeros", "anchors": ["segpy/ibm_float.py:IBMFloat.__neg__", "segpy/ibm_float.py:IBMFloat.__abs__", "segpy/ibm_float.py:IBMFloat.is_zero", "segpy/ibm_float.py:IBMFloat.__bool__", "segpy/ibm_float.py:IBMFloat.zero_subnormal"]}
{"id": "C13", "title": "frexp and ldexp are inverse", "statement": "x.frexp() returns (m, e) with |m| < 1 and m * 2^e exactly the value of x; IBMFloat.ldexp(*x.frexp()) has exactly the value of x.", "quantifier": "all four-byte words", "why_tests_cant": "2^32 words; exactness of double multiplication by powers of two", "anchors": ["segpy/ibm_float.py:IBMFloat.frexp", "segpy/ibm_float.py:IBMFloat.ldexp"]}
{"id": "C14", "title": "IBM arithmetic is the truncation of the correctly rounded double operation", "statement": "For IBMFloats x, y: x+y, x-y, x*y and x/y (y non-zero) return the IBM truncation of the IEEE double result, return exactly zero on underflow, raise OverflowError only when the double result exceeds MAX_IBM_FLOAT; x+y and y+x, x*y and y*x give identical words; the sum of two integers of at most 2^20 in magnitude is exact.", "quantifier": "all pairs of four-byte words", "why_tests_cant": "2^64 pairs and rounding behaviour", "anchors": ["segpy/ibm_float.py:IBMFloat.__add__", "segpy/ibm_float.py:IBMFloat.__sub__", "segpy/ibm_float.py:IBMFloat.__mul__", "segpy/ibm_float.py:IBMFloat.__truediv__", "segpy/ibm_float.py:IBMFloat.from_float_without_underflow"]}
{"id": "C15", "title": "Integer field types accept exactly their range", "statement": "Assigning v to a header field of an integer type succeeds exactly when MINIMUM <= v <= MAXIMUM (for enumerated fields: exactly when v is a member) and then reading the field gives v; otherwise ValueError and the previous value of every field is unchanged.", "quantifier": "all integers v, all integer and enumerated field types, all header states", "why_tests_cant": "unbounded integers and all header states", "anchors": ["segpy/field_types.py:IntFieldMeta.class_new", "segpy/field_types.py:IntEnumFieldMeta.class_new", "segpy/header.py:HeaderFieldDescriptor.__set__", "segpy/header.py:HeaderFieldDescriptor.__get__"]}
{"id": "C16", "title": "Header layout compilation places every field at its offset", "statement": "If a header format compiles, then packing any header yields exactly LENGTH_IN_BYTES bytes in which the bytes at offset(f)-START_OFFSET .. +size hold the two's complement encoding of field f in the requested byte order, and every byte not covered by a field is zero.", "quantifier": "all header formats with offsets not before START_OFFSET, all header values, both byte orders", "why_tests_cant": "custom formats are user-supplied; layouts are unbounded", "anchors": ["segpy/packer.py:compile_struct", "segpy/packer.py:make_header_packer", "segpy/packer.py:BijectiveHeaderPacker", "segpy/packer.py:SurjectiveHeaderPacker"]}
{"id": "C17", "title": "Layout compilation rejects exactly the ill-formed formats", "statement": "compile_struct raises TypeError exactly for no fields or coincident fields of different types, ValueError exactly when start offset is negative, the length is less than one, two fields partially overlap, or the fields extend past the length; every accepted format has pairwise disjoint-or-coincident fields.", "quantifier": "all lists of fields (any offsets, sizes, order), all start offsets and lengths", "why_tests_cant": "only adjacent fields are compared after sorting; that this suffices is an induction", "anchors": ["segpy/packer.py:compile_struct", "segpy/util.py:intervals_partially_overlap", "segpy/util.py:complementary_intervals"]}
{"id": "C18", "title": "Header pack/unpack round trip for the shipped formats", "statement": "For BinaryReelHeader, TraceHeaderRev0 and TraceHeaderRev1 and both byte orders, unpack(pack(h)) has the same field values as h.", "quantifier": "all header objects of the three formats, both byte orders", "why_tests_cant": "about 90 fields of 16/32 bits each", "anchors": ["segpy/binary_reel_header.py:BinaryReelHeader", "segpy/trace_header.py:TraceHeaderRev0", "segpy/trace_header.py:TraceHeaderRev1", "segpy/packer.py:make_header_packer"]}
{"id": "C19", "title": "Header pack/unpack round trip for user-defined formats", "statement": "For every header format that compiles, unpack(pack(h)) has the same field values as h, whatever order the fields are declared in.", "quantifier": "all header formats (declaration orders, coincident fields) and all header values", "why_tests_cant": "user-defined formats; the failing case needs fields declared out of offset order", "anchors": ["segpy/packer.py:BijectiveHeaderPacker._unpack", "segpy/packer.py:SurjectiveHeaderPacker._unpack", "segpy/header.py:BaseHeader.__init__"]}
{"id": "C20", "title": "Unpacking a header rejects buffers of the wrong length and invalid values", "statement": "unpack(buf) raises ValueError exactly when len(buf) differs from the header length or some field decodes to a value its type does not accept; it never returns a partially filled header.", "quantifier": "all byte buffers, all compiled formats whose fields are declared in offset order or share offsets (other declaration orders are covered by the round trip property)", "why_tests_cant": "all buffer lengths and contents", "anchors": ["segpy/packer.py:HeaderPacker.unpack", "segpy/field_types.py:IntFieldMeta.class_new"]}
{"id": "C21", "title": "Re-packing an unpacked header", "statement": "For a buffer that unpacks, pack(unpack(buf)) equals buf at every byte covered by a field and is zero at every byte not covered; hence it is buf exactly when all uncovered bytes were zero.", "quantifier": "all buffers of header length, shipped formats, both byte orders", "why_tests_cant": "all 2^1920 trace headers", "anchors": ["segpy/packer.py:HeaderPacker.pack", "segpy/packer.py:HeaderPacker.unpack"]}
{"id": "C22", "title": "Coincident fields with different values are refused", "statement": "Packing a header whose format has several fields at one offset raises ValueError exactly when two such fields differ; otherwise the common value is stored once.", "quantifier": "all formats with coincident fields, all header values", "why_tests_cant": "all values and groupings", "anchors": ["segpy/packer.py:SurjectiveHeaderPacker._pack", "segpy/util.py:all_equal"]}
{"id": "C23", "title": "Header construction, copy and comparison", "statement": "A header built from keyword arguments holds exactly those values and defaults elsewhere; copy(**updates) differs from the original exactly in the updated fields and leaves the original unchanged; are_equal is true exactly when all fields agree; an unknown keyword raises TypeError; an invalid value raises ValueError.", "quantifier": "all formats, headers and update sets", "why_tests_cant": "all subsets of about 90 fields", "anchors": ["segpy/header.py:BaseHeader.__init__", "segpy/header.py:BaseHeader.copy", "segpy/header.py:are_equal"]}
{"id": "C24", "title": "Pickling a header preserves every field", "statement": "Unpickling a pickled header object gives a header with the same value in every field, including inherited fields.", "quantifier": "all header classes (including subclasses) and all header values", "why_tests_cant": "depends on class hierarchy; only non-derived headers are tested", "anchors": ["segpy/header.py:BaseHeader.__getstate__", "segpy/header.py:BaseHeader.__setstate__"]}
{"id": "C25", "title": "Shipped headers follow the SEG Y byte layout", "statement": "The fields of BinaryReelHeader, TraceHeaderRev0 and TraceHeaderRev1 are at the byte positions and widths the SEG Y revision 1 standard assigns, do not overlap, fit in 400/240 bytes and are declared in offset order; each default is valid for its type.", "quantifier": "all fields of the shipped formats", "why_tests_cant": "a consistency claim over the complete tables, against the standard rather than against the code", "anchors": ["segpy/binary_reel_header.py:BinaryReelHeader", "segpy/trace_header.py:TraceHeaderRev1"]}
{"id": "C26", "title": "Sub-format views agree with the full header", "statement": "Reading a header through a sub-format (a chosen subset of fields of a format) yields for each chosen field the same value as reading through the full format.", "quantifier": "all formats, all subsets of fields in any order, all buffers", "why_tests_cant": "all subsets and orders; used by catalog_traces and the numpy extension", "anchors": ["segpy/header.py:SubFormatMeta.__new__", "segpy/toolkit.py:catalog_traces", "segpy-ext/segpy_numpy/segpy_numpy/extract.py:extract_trace_headers"]}
{"id": "C27", "title": "Integer sample packing round trip", "statement": "For every integer sample type and both byte orders, unpack_values(pack_values(vs)) == vs for in-range vs, whatever the machine's native byte order; packing has length n*size and out-of-range values raise struct.error; the bytes in the two orders are item-wise reversals of one another.", "quantifier": "all lists of samples, both byte orders, both native byte orders", "why_tests_cant": "unbounded lists; native byte order cannot be varied on one machine", "anchors": ["segpy/toolkit.py:pack_values", "segpy/toolkit.py:unpack_values", "segpy/toolkit.py:read_binary_values", "segpy/toolkit.py:write_binary_values"]}
{"id": "C28", "title": "batched partitions its input", "statement": "batched(xs, n) for n >= 1 yields lists whose concatenation is xs (plus padding in the last), all of length n except possibly an unpadded last, none empty; n < 1 raises ValueError.", "quantifier": "all finite series, all batch sizes, all paddings", "why_tests_cant": "unbounded lengths", "anchors": ["segpy/util.py:batched", "segpy/util.py:pad"]}
{"id": "C29", "title": "complementary_intervals tiles the span", "statement": "For ordered, non-overlapping intervals within [start, stop), the result has one more interval than the input and interleaving result and input covers [start, stop) contiguously without overlap. intervals_are_contiguous is true exactly when each interval begins where the one before it ends.", "quantifier": "all non-empty lists of intervals and bounds", "why_tests_cant": "unbounded lists", "anchors": ["segpy/util.py:complementary_intervals", "segpy/util.py:intervals_are_contiguous"]}
{"id": "C30", "title": "intervals_partially_overlap", "statement": "For non-empty intervals it is true exactly when the intervals share an integer and are not the same interval.", "quantifier": "all pairs of non-empty integer ranges", "why_tests_cant": "unbounded integers", "anchors": ["segpy/util.py:intervals_partially_overlap"]}
{"id": "C31", "title": "reversed_range reverses", "statement": "list(reversed_range(r)) == list(reversed(r)) for every range r, empty or not, any non-zero step.", "quantifier": "all starts, stops and non-zero steps", "why_tests_cant": "unbounded integers; arithmetic with floor division of negatives", "anchors": ["segpy/util.py:reversed_range"]}
{"id": "C32", "title": "make_sorted_distinct_sequence", "statement": "The result is strictly monotone, contains exactly the distinct items of the input, is ascending (descending) when that sense is requested, keeps the sense of the data when sense is None and the data is strictly descending, and is a range exactly when the items are evenly spaced.", "quantifier": "all non-empty finite integer series and senses; all range objects", "why_tests_cant": "unbounded inputs", "anchors": ["segpy/util.py:make_sorted_distinct_sequence", "segpy/util.py:compress_sorted_sequence_to_range", "segpy/util.py:is_sorted"]}
{"id": "C33", "title": "make_sorted_distinct_sequence accepts any iterable series", "statement": "The result depends only on the items produced by the iterable: an iterator and a list of the same items, including no items at all, give the same result.", "quantifier": "all iterables (one-shot iterators and sequences), all senses, including empty series", "why_tests_cant": "tests pass lists only; failure needs a one-shot iterator with sense=None, or an empty series", "anchors": ["segpy/util.py:make_sorted_distinct_sequence", "segpy/util.py:pairwise"]}
{"id": "C34", "title": "Stride, order and duplicate detection", "statement": "measure_stride returns d exactly when there are two or more items and all successive differences are d; contains_duplicates on sorted data is true exactly when some item repeats; is_sorted is true exactly when the (strict/non-strict, ascending/descending) order holds; minmax returns the least and greatest item. A range gives the same results as the list of its items.", "quantifier": "all non-empty finite integer series", "why_tests_cant": "unbounded lists", "anchors": ["segpy/util.py:measure_stride", "segpy/util.py:contains_duplicates", "segpy/util.py:is_sorted", "segpy/util.py:minmax"]}
{"id": "C35", "title": "SortedFrozenSet behaves as a sorted set", "statement": "For a SortedFrozenSet s of xs: iteration is strictly increasing with the same elements as xs; x in s iff x in xs; s[s.index(x)] == x; index raises ValueError exactly for absent items; len counts distinct items; union, intersection, difference, symmetric difference, equality, subset, superset and their proper forms and isdisjoint are the set operations; count is 1 for a member and 0 otherwise; s + t is the set of the items of both; s * n is s for positive n and empty otherwise.", "quantifier": "all finite integer series", "why_tests_cant": "bisection invariants over unbounded lists", "anchors": ["segpy/sorted_frozen_set.py:SortedFrozenSet"]}
{"id": "C36", "title": "ReversedSequenceView is the reversal of its sequence", "statement": "Iterating the view gives the reversed items; view[i] is item n-1-i for 0<=i<n, negative indexes count from the end, others raise IndexError; index(x) is the first position of x in the reversed order; membership and count agree with the underlying sequence.", "quantifier": "all finite sequences (including views of views) and integer indexes", "why_tests_cant": "unbounded sequences and indexes", "anchors": ["segpy/reversed_sequence_view.py:ReversedSequenceView"]}
{"id": "C37", "title": "roundrobin visits every item once, in rounds", "statement": "roundrobin(*its) yields the items ordered by (position within its series, index of the series): all items exactly once.", "quantifier": "all finite lists of finite series", "why_tests_cant": "the cycle/islice bookkeeping over unbounded inputs", "anchors": ["segpy/util.py:roundrobin"]}
{"id": "C38", "title": "round_up, cmp and sgn", "statement": "round_up(n, m) for m >= 1 is the least multiple of m not less than n and ValueError for m <= 0; sgn and cmp give the sign of the difference.", "quantifier": "all integers", "why_tests_cant": "unbounded integers incl. negatives", "anchors": ["segpy/util.py:round_up", "segpy/util.py:cmp", "segpy/util.py:sgn"]}
{"id": "C39", "title": "CatalogBuilder builds a faithful 1D mapping", "statement": "For distinct integer keys (at least one), create() returns a mapping with exactly the added items: lookup of each key gives its value, lookup of any other integer raises KeyError, membership agrees, len is the number of items and iteration yields the keys in increasing order - whichever of the five representations is chosen.", "quantifier": "all non-empty finite sets of (int key, int value) items in any insertion order", "why_tests_cant": "five representations chosen by heuristics over unbounded data", "anchors": ["segpy/catalog.py:CatalogBuilder.create", "segpy/catalog.py:RegularConstantCatalog", "segpy/catalog.py:ConstantCatalog", "segpy/catalog.py:RegularCatalog", "segpy/catalog.py:LinearRegularCatalog", "segpy/catalog.py:DictionaryCatalog"]}
{"id": "C40", "title": "CatalogBuilder builds a faithful 2D mapping", "statement": "The same for keys which are pairs of integers: create() returns a mapping with exactly the added items, in each of the three 2D representations, with i_range/j_range the sorted distinct first/second key components; iteration yields each key once.", "quantifier": "all non-empty finite sets of ((i, j), value) items in any insertion order", "why_tests_cant": "row-major/column-major/irregular detection over unbounded data", "anchors": ["segpy/catalog.py:CatalogBuilder._create_catalog_2", "segpy/catalog.py:LastIndexVariesQuickestCatalog2D", "segpy/catalog.py:FirstIndexVariesQuickestCatalog2D", "segpy/catalog.py:DictionaryCatalog2D"]}
{"id": "C41", "title": "CatalogBuilder returns None exactly for duplicate keys", "statement": "create() returns None exactly when some key was added more than once.", "quantifier": "all finite sequences of add() calls with at least one call", "why_tests_cant": "all insertion orders", "anchors": ["segpy/catalog.py:CatalogBuilder.create", "segpy/util.py:contains_duplicates"]}
{"id": "C42", "title": "An empty CatalogBuilder creates an empty mapping", "statement": "create() with nothing added returns an empty mapping.", "quantifier": "the empty history of add() calls (and every API call that reaches it, e.g. opening a file without traces)", "why_tests_cant": "Python-version dependent (PEP 479): passes on 3.6, fails on 3.7 and later", "anchors": ["segpy/catalog.py:CatalogBuilder.create", "segpy/util.py:pairwise", "segpy/util.py:contains_duplicates"]}
{"id": "C43", "title": "2D catalog key() inverts lookup", "statement": "For the row- and column-major catalogs, key(v) returns the unique key whose value is v, and raises ValueError exactly when v is not a value.", "quantifier": "all catalogs of these kinds and all integers v", "why_tests_cant": "divmod index arithmetic over unbounded grids", "anchors": ["segpy/catalog.py:LastIndexVariesQuickestCatalog2D.key", "segpy/catalog.py:FirstIndexVariesQuickestCatalog2D.key"]}
{"id": "C44", "title": "Catalog constructors reject inconsistent descriptions", "statement": "RegularConstantCatalog, RegularCatalog, LinearRegularCatalog and the 2D catalogs raise ValueError for inconsistent bounds, strides and value counts, and every catalog that is constructed with positive strides is internally consistent: len equals the number of iterated keys and every iterated key can be looked up. A dictionary catalog of items with repeated keys holds the last value given for each key.", "quantifier": "all integer arguments", "why_tests_cant": "unbounded arguments", "anchors": ["segpy/catalog.py:RegularConstantCatalog.__init__", "segpy/catalog.py:RegularCatalog.__init__", "segpy/catalog.py:LinearRegularCatalog.__init__", "segpy/catalog.py:LastIndexVariesQuickestCatalog2D.__init__"]}
{"id": "C45", "title": "Textual header write/read round trip", "statement": "write_textual_reel_header then read_textual_reel_header with the same encoding returns forty 80-character lines: the given lines truncated to 80 characters or padded with spaces, blank lines if fewer than forty, excess lines discarded; exactly 3200 bytes are written at the file position and the position ends just after them.", "quantifier": "all lists of encodable strings, both encodings, all prior file contents and positions", "why_tests_cant": "all strings and all 256 EBCDIC characters", "anchors": ["segpy/toolkit.py:write_textual_reel_header", "segpy/toolkit.py:read_textual_reel_header"]}
{"id": "C46", "title": "Unencodable or unsupported text is refused before anything is written", "statement": "Writing a textual header raises UnsupportedEncodingError for encodings other than ascii/cp037 and UnicodeError exactly when one of the first forty lines has an unencodable character, leaving the file unchanged; writing extended headers raises ValueError/UnicodeError for a bad shape or character without modifying the file contents.", "quantifier": "all line lists, page lists and encodings", "why_tests_cant": "all-or-nothing over unbounded inputs", "anchors": ["segpy/toolkit.py:write_textual_reel_header", "segpy/toolkit.py:write_extended_textual_headers", "segpy/encoding.py:is_supported_encoding"]}
{"id": "C47", "title": "Standard textual header is always 40 x 80", "statement": "format_standard_textual_header returns forty lines of eighty characters for any keyword values, agreeing with the template outside the placeholders, with the revision's end marker on card 40 unless overridden; unknown keywords raise TypeError.", "quantifier": "all keyword values (any length) and both revisions", "why_tests_cant": "arbitrary strings in 89 fields", "anchors": ["segpy/toolkit.py:format_standard_textual_header", "segpy/toolkit.py:parse_template", "segpy/textual_reel_header.py:TEMPLATE"]}
{"id": "C48", "title": "Standard textual header format/parse round trip", "statement": "parse_standard_textual_header(format_standard_textual_header(rev, **kw)) returns for every field the given value truncated to its placeholder width and stripped of surrounding whitespace ('' for omitted fields).", "quantifier": "all keyword values", "why_tests_cant": "arbitrary strings in all fields", "anchors": ["segpy/toolkit.py:format_standard_textual_header", "segpy/toolkit.py:parse_standard_textual_header"]}
{"id": "C49", "title": "Extended textual header pages are well-formed", "statement": "format_extended_textual_header returns pages of exactly forty lines of exactly eighty characters ending in CR LF whose contents, in order, are the text's lines split at 78 characters and space-padded; with include_text_stop a final page starting with the EndText stanza is appended.", "quantifier": "all texts and both encodings", "why_tests_cant": "arbitrary unbounded text", "anchors": ["segpy/toolkit.py:format_extended_textual_header", "segpy/toolkit.py:pad_and_terminate_header_line"]}
{"id": "C50", "title": "Extended textual header preserves newlines", "statement": "Every line of the text, including blank lines, occupies at least one header line, so that the line structure of the text is preserved.", "quantifier": "all texts", "why_tests_cant": "needs texts with blank lines", "anchors": ["segpy/toolkit.py:format_extended_textual_header"]}
{"id": "C51", "title": "Extended textual headers write/read round trip", "statement": "Pages written by write_extended_textual_headers are read back identically by read_extended_textual_headers when the binary header declares their number (and no page but the last begins with the EndText stanza) or declares -1 and exactly the last page does; afterwards the file position is at the first trace header.", "quantifier": "all page lists, both encodings, counted and until-end modes", "why_tests_cant": "unbounded numbers of pages", "anchors": ["segpy/toolkit.py:write_extended_textual_headers", "segpy/toolkit.py:read_extended_textual_headers", "segpy/toolkit.py:read_extended_headers_counted", "segpy/toolkit.py:read_extended_headers_until_end"]}
{"id": "C52", "title": "Reading extended headers terminates with the documented errors", "statement": "On every file, reading extended headers terminates; it raises EOFError exactly when the file ends first, and ValueError exactly when the EndText stanza appears before the last counted page.", "quantifier": "all file contents and declared counts", "why_tests_cant": "while-True loop over arbitrary bytes", "anchors": ["segpy/toolkit.py:read_extended_headers_until_end", "segpy/toolkit.py:read_extended_headers_counted"]}
{"id": "C53", "title": "Encoding guess", "statement": "guess_encoding of text made of letters, digits, ':', '_', '-' and spaces returns the encoding used, whenever fewer than half the bytes are ambiguous between the encodings; all-NUL gives ascii; empty gives None; otherwise the guess is the one encoding in which at least half of the bytes stand for such characters, None if that is so for both or neither; and the result never depends on the order of bytes.", "quantifier": "all byte strings", "why_tests_cant": "all byte strings", "anchors": ["segpy/encoding.py:guess_encoding", "segpy/toolkit.py:guess_textual_header_encoding"]}
{"id": "C54", "title": "Text codecs are inverse", "statement": "For ascii and cp037, decoding the encoding of a string gives the string, one byte per character; every byte decodes under cp037 and re-encodes to itself; ascii encodes exactly code points below 128.", "quantifier": "all strings and byte strings", "why_tests_cant": "all strings", "anchors": ["segpy/encoding.py:ASCII", "segpy/encoding.py:EBCDIC", "segpy/toolkit.py:read_textual_reel_header"]}
{"id": "C55", "title": "Scanning a file finds every trace", "statement": "catalog_traces on any file terminates and yields trace k at offset p_k with p_0 the given position and p_{k+1} = p_k + 240 + bps * num_samples_k, for as long as 240 bytes remain; the length catalog holds num_samples_k.", "quantifier": "all file contents with at least one trace header, sample sizes, starting positions, trace header formats in the order of the standard with an unsigned number of samples", "why_tests_cant": "unbounded file contents; loop termination", "anchors": ["segpy/toolkit.py:catalog_traces"]}
{"id": "C56", "title": "Write then read returns the same dataset", "statement": "For every dataset whose headers are consistent, write_segy then create_reader with the same encoding and byte order yields a reader with the same textual header, binary header, extended headers, number of traces and, for every trace, the same trace header and samples.", "quantifier": "all consistent datasets with at least one trace, both encodings, both byte orders, all integer and IBM sample formats", "why_tests_cant": "whole-file round trip over unbounded numbers of traces and samples", "anchors": ["segpy/writer.py:write_segy", "segpy/reader.py:create_reader", "segpy/reader.py:SegYReader"]}
{"id": "C57", "title": "Every dataset accepted by write_segy can be read back", "statement": "If write_segy succeeds then create_reader on the file succeeds and gives the same dataset.", "quantifier": "all datasets, including no traces, and header counts inconsistent with the data", "why_tests_cant": "inconsistent headers and empty datasets are not generated by tests", "anchors": ["segpy/writer.py:write_segy", "segpy/reader.py:create_reader"]}
{"id": "C58", "title": "Byte-order and encoding conversion is lossless", "statement": "Reading a file and writing it with another byte order and/or encoding, then reading that, gives the same headers and samples.", "quantifier": "all readable consistent files, all four byte-order/encoding combinations", "why_tests_cant": "whole-file property", "anchors": ["segpy/writer.py:write_segy", "segpy/reader.py:create_reader"]}
{"id": "C59", "title": "Partial trace reads are slices", "statement": "trace_samples(k, a, b) equals trace_samples(k)[a:b] for 0 <= a <= b <= n, and raises ValueError exactly for an out-of-range trace index, start or stop (None meaning the default), or EOFError exactly when the file ends inside the requested samples.", "quantifier": "all readers, indexes, starts and stops", "why_tests_cant": "all files and argument combinations", "anchors": ["segpy/reader.py:SegYReader.trace_samples", "segpy/toolkit.py:read_binary_values"]}
{"id": "C60", "title": "Reader results do not depend on the history of calls", "statement": "Every trace_samples/trace_header result depends only on the file contents and arguments, not on earlier reader calls or the file position, and reading never modifies the file.", "quantifier": "all sequences of reader calls", "why_tests_cant": "all histories", "anchors": ["segpy/reader.py:SegYReader.trace_samples", "segpy/reader.py:SegYReader.trace_header", "segpy/toolkit.py:read_trace_header"]}
{"id": "C61", "title": "3D index agrees with the trace headers", "statement": "For a 3D reader obtained by the heuristic, trace_index((i, x)) = k exactly when trace k's header has inline i and crossline x; has_trace_index, inline_numbers, xline_numbers and inline_xline_numbers agree with the headers.", "quantifier": "all files whose (inline, crossline) pairs are distinct", "why_tests_cant": "all survey geometries", "anchors": ["segpy/reader.py:SegYReader3D", "segpy/toolkit.py:catalog_traces"]}
{"id": "C62", "title": "2D index agrees with the trace headers", "statement": "For a 2D reader obtained by the heuristic, trace_index(c) = k exactly when trace k's header has ensemble number c; cdp_numbers and num_cdps agree.", "quantifier": "all files with distinct ensemble numbers and repeated (inline, crossline) pairs", "why_tests_cant": "all geometries", "anchors": ["segpy/reader.py:SegYReader2D", "segpy/toolkit.py:catalog_traces"]}
{"id": "C63", "title": "Dimensionality heuristic", "statement": "With dimensionality None the reader is 3D exactly when all (inline, crossline) pairs are distinct, else 2D exactly when all ensemble numbers are distinct, else plain (reported dimensionality 1 for one trace, otherwise 0); an explicit dimensionality selects that reader type.", "quantifier": "all files with at least one trace", "why_tests_cant": "all geometries", "anchors": ["segpy/reader.py:_make_reader", "segpy/reader.py:SegYReader.dimensionality"]}
{"id": "C64", "title": "A dataset with no traces can be opened", "statement": "create_reader on a well-formed file with no traces returns a reader with zero traces.", "quantifier": "all files consisting of valid reel headers only", "why_tests_cant": "Python-version dependent generator semantics", "anchors": ["segpy/reader.py:create_reader", "segpy/catalog.py:CatalogBuilder.create", "segpy/util.py:pairwise"]}
{"id": "C65", "title": "Read progress is between zero and one", "statement": "Every value passed to the progress callback of create_reader lies between 0 and 1, values never decrease and the last is 1.", "quantifier": "all files", "why_tests_cant": "all files; tests only check that the callback is called with 1", "anchors": ["segpy/toolkit.py:catalog_traces", "segpy/reader.py:create_reader"]}
{"id": "C66", "title": "Write progress is between zero and one", "statement": "Every value passed to the progress callback of write_segy lies between 0 and 1, values never decrease and the last is 1.", "quantifier": "all datasets with conforming trace indexes", "why_tests_cant": "unbounded trace counts", "anchors": ["segpy/writer.py:write_segy"]}
{"id": "C67", "title": "read_trace_header raises EOFError only for short files", "statement": "trace_header(k) raises EOFError only if the file is too short to contain the full header.", "quantifier": "all files and trace indexes", "why_tests_cant": "requires header bytes holding values the field types refuse", "anchors": ["segpy/toolkit.py:read_trace_header", "segpy/packer.py:HeaderPacker.unpack"]}
{"id": "C68", "title": "Erroneous but common revision codes are canonicalised when reading", "statement": "A file whose format revision number is 0x0000 is read as revision 0 and one with 0x0100, 1 or 100 as revision 1; other codes are refused.", "quantifier": "all revision codes", "why_tests_cant": "all 65536 codes through the whole reading path", "anchors": ["segpy/revisions.py:canonicalize_revision", "segpy/binary_reel_header.py:BinaryReelHeader", "segpy/toolkit.py:extract_revision"]}
{"id": "C69", "title": "create_reader validates its arguments before reading", "statement": "create_reader raises ValueError for a closed file, a file shorter than 3600 bytes, an unknown byte order or dimensionality, and TypeError for text-mode or unseekable files and uncallable progress, in that priority, without consuming the file; otherwise it proceeds.", "quantifier": "all combinations of argument defects and file lengths", "why_tests_cant": "all combinations", "anchors": ["segpy/reader.py:create_reader"]}
{"id": "C70", "title": "The reader cache is transparent", "statement": "For any history of create_reader calls, file modifications and crashes while saving, create_reader with a cache directory returns a reader equivalent to the one it would build without a cache.", "quantifier": "all histories of calls, file changes, cache corruption and crashes", "why_tests_cant": "histories and crash points", "anchors": ["segpy/reader.py:create_reader", "segpy/reader.py:_load_reader_from_cache", "segpy/reader.py:_save_reader_to_cache", "segpy/reader.py:_locate_cache_file", "segpy/util.py:hash_for_file", "segpy/reader.py:SegYReader.__setstate__"]}
{"id": "C71", "title": "Damaged cache entries never prevent opening a file", "statement": "If the cached pickle is truncated, empty or unreadable, it is removed and the reader is rebuilt from the file and saved again.", "quantifier": "all crash points during saving and all corruptions that fail to unpickle", "why_tests_cant": "crash points", "anchors": ["segpy/reader.py:_load_reader_from_cache", "segpy/reader.py:_save_reader_to_cache"]}
{"id": "C72", "title": "Position-restoring helpers", "statement": "file_length and guess_textual_header_encoding leave the file contents and position unchanged and return a function of the contents only; hash_for_file's digest input is the contents, the length and the arguments in order.", "quantifier": "all files and positions", "why_tests_cant": "all positions and contents", "anchors": ["segpy/util.py:file_length", "segpy/util.py:restored_position_seek", "segpy/util.py:hash_for_file", "segpy/toolkit.py:guess_textual_header_encoding"]}
{"id": "C73", "title": "DelegatingDataset is transparent", "statement": "Writing DelegatingDataset(d) produces the same file as writing d. A DelegatingDataset of a reader answers from the file as the reader does: every trace header and every range of the samples of every trace.", "quantifier": "all datasets", "why_tests_cant": "all datasets", "anchors": ["segpy/dataset.py:DelegatingDataset", "segpy/writer.py:write_segy"]}
{"id": "C74", "title": "ensure_superset accepts exactly the subsets", "statement": "ensure_superset(all, subset) returns the sorted distinct subset when every item of subset is in all, and raises ValueError exactly otherwise.", "quantifier": "all sorted distinct collections (ranges or sets) and all non-empty integer subsets", "why_tests_cant": "range/step divisibility reasoning over unbounded ranges", "anchors": ["segpy-ext/segpy_numpy/segpy_numpy/util.py:ensure_superset"]}
{"id": "C75", "title": "Array dataset trace index mapping", "statement": "In an array dataset of n inlines by m crosslines, trace index and (inline, crossline) position are in one-to-one correspondence: trace t is at inline t div m, crossline t mod m.", "quantifier": "all shapes and trace indexes", "why_tests_cant": "failing case needs a non-square shape", "anchors": ["segpy-ext/segpy_numpy/segpy_numpy/array_dataset.py"]}
{"id": "C76", "title": "Formats with fields before the start offset are rejected", "statement": "A format with a field whose offset is before the format's START_OFFSET cannot be compiled to a packer: make_header_packer raises ValueError. So a packed header always has LENGTH_IN_BYTES bytes.", "quantifier": "all header format classes", "why_tests_cant": "needs all offset/size combinations; no test declares such a format", "anchors": ["segpy/packer.py:compile_struct", "segpy/packer.py:make_header_packer"]}
{"id": "C77", "title": "Header constructor refuses unknown arguments", "statement": "Constructing a header with a keyword that is not the name of a field, or with more positional arguments than fields, raises TypeError.", "quantifier": "all header format classes, all argument lists", "why_tests_cant": "any attribute name may be used as keyword", "anchors": ["segpy/header.py:BaseHeader.__init__"]}
{"id": "C78", "title": "Finding the traces terminates for custom trace header formats", "statement": "create_reader terminates on every file, whatever trace header format it is given.", "quantifier": "all 240-byte trace header formats with the fields create_reader uses, all file contents", "why_tests_cant": "non-termination needs a custom format and particular contents", "anchors": ["segpy/toolkit.py:catalog_traces"]}
{"id": "C79", "title": "TraceHeaderRev0 can be used for reading", "statement": "Every shipped trace header format, TraceHeaderRev0 included, can be given to create_reader as trace_header_format.", "quantifier": "all shipped trace header formats, all readable files", "why_tests_cant": "tests read with the default format only", "anchors": ["segpy/reader.py:create_reader", "segpy/trace_header.py:TraceHeaderRev0", "segpy/toolkit.py:catalog_traces"]}
{"id": "C80", "title": "Sample codec round trip", "statement": "Samples written with write_trace_samples are read back with read_binary_values: integers unchanged, IBM floats byte for byte, doubles as the nearest single-precision float (ties to even) or truncated to an IBM float. Numbers the type cannot hold are refused and nothing is written.", "quantifier": "all sample formats, both byte orders, all lists of numbers, all file positions", "why_tests_cant": "all bit patterns and all roundings", "anchors": ["segpy/toolkit.py:write_binary_values", "segpy/toolkit.py:pack_values", "segpy/toolkit.py:read_binary_values", "segpy/toolkit.py:unpack_values"]}
{"id": "C81", "title": "The index of a custom trace header format agrees with its headers", "statement": "With any trace header format that has the five fields create_reader uses, the 2D/3D index of the reader agrees with the trace headers it returns.", "quantifier": "all 240-byte trace header formats with these fields, all file contents", "why_tests_cant": "needs formats with relocated fields (the documented use of custom formats)", "anchors": ["segpy/toolkit.py:catalog_traces", "segpy/reader.py:create_reader", "segpy/packer.py:make_header_packer"]}
{"id": "C82", "title": "Layout of a written file", "statement": "write_segy produces 3200 bytes of textual header, 400 bytes of binary header, 3200 bytes per extended textual header page, then for each trace 240 bytes of header followed by its samples, and nothing else.", "quantifier": "all datasets write_segy accepts", "why_tests_cant": "unbounded numbers of pages, traces and samples", "anchors": ["segpy/writer.py:write_segy", "segpy/toolkit.py:write_trace_header"]}
{"id": "C83", "title": "Outcome of opening a file", "statement": "For every file of at least 3600 bytes create_reader returns, leaving the contents unchanged: a reader whose textual, binary and extended headers, byte order, encoding, revision and sample size are those of the file, or exactly the exception of the first part of the file that cannot be read.", "quantifier": "all file contents, encodings, byte orders, binary and trace header formats", "why_tests_cant": "all file contents", "anchors": ["segpy/reader.py:create_reader", "segpy/reader.py:_make_reader"]}
{"id": "C84", "title": "Trace headers are decoded from their place in the file", "statement": "trace_header(k) decodes every field of the format from the 240 bytes at the position of trace k in the reader's byte order; an index out of range raises ValueError.", "quantifier": "all files, readers, trace indexes, trace header formats", "why_tests_cant": "all file contents and formats", "anchors": ["segpy/reader.py:SegYReader.trace_header", "segpy/toolkit.py:read_trace_header"]}
{"id": "C85", "title": "Trace and sample counts", "statement": "num_traces is the number of traces in the file, trace_indexes yields 0, 1, ..., num_traces-1, num_trace_samples(k) is the count in the header of trace k (KeyError for other k), and max_num_trace_samples is the largest of them.", "quantifier": "all files with at least one trace", "why_tests_cant": "all file contents, all catalog representations", "anchors": ["segpy/reader.py:SegYReader.num_traces", "segpy/reader.py:SegYReader.trace_indexes", "segpy/reader.py:SegYReader.num_trace_samples", "segpy/reader.py:SegYReader.max_num_trace_samples"]}
{"id": "C86", "title": "A cache that cannot be written never prevents opening a file", "statement": "If the cache directory cannot be created or the cache file cannot be written or removed, create_reader returns the reader it would return without a cache.", "quantifier": "all files, requests and access rights of the cache directory", "why_tests_cant": "failures of the file system at any step", "anchors": ["segpy/reader.py:_save_reader_to_cache", "segpy/reader.py:_load_reader_from_cache"]}
{"id": "C87", "title": "Every seekable binary file object can be opened with the default arguments", "statement": "create_reader accepts a file whatever its name attribute is: missing, a path, or the number of a file descriptor (as for tempfile.TemporaryFile).", "quantifier": "all file objects and cache directories", "why_tests_cant": "all kinds of file objects", "anchors": ["segpy/reader.py:_locate_cache_file", "segpy/reader.py:create_reader", "segpy/util.py:filename_from_handle"]}
{"id": "C88", "title": "Slices select by position", "statement": "When a slice is given instead of items, the items chosen are those at the positions the slice selects (negative bounds count from the end), in increasing order without duplicates; a step of 0 raises ValueError.", "quantifier": "all sorted distinct collections and all slices", "why_tests_cant": "unbounded collections, bounds and steps", "anchors": ["segpy-ext/segpy_numpy/segpy_numpy/util.py:ensure_superset", "segpy/sorted_frozen_set.py:SortedFrozenSet.__getitem__"]}
{"id": "C89", "title": "A timeslice holds the chosen sample of each trace", "statement": "extract_timeslice_3d gives an array with one row per chosen inline and one column per chosen crossline; the cell is sample n of the trace there, or empty where there is no trace; ValueError if a chosen trace has no sample n. The file contents are unchanged.", "quantifier": "all 3D files, sample numbers and selections of inlines and crosslines", "why_tests_cant": "all files and selections", "anchors": ["segpy-ext/segpy_numpy/segpy_numpy/extract.py:extract_timeslice_3d"]}
{"id": "C90", "title": "An extracted inline holds the samples of its traces", "statement": "extract_inline_3d gives an array with one row per chosen crossline and one column per chosen sample number; the cell is that sample of the trace there, or empty where there is no such trace or sample.", "quantifier": "all 3D files, inlines and selections of crosslines and sample numbers", "why_tests_cant": "all files and selections, traces of differing lengths", "anchors": ["segpy-ext/segpy_numpy/segpy_numpy/extract.py:extract_inline_3d"]}
{"id": "C91", "title": "An extracted crossline holds the samples of its traces", "statement": "extract_xline_3d gives an array with one row per chosen inline and one column per chosen sample number; the cell is that sample of the trace there, or empty where there is no such trace or sample.", "quantifier": "all 3D files, crosslines and selections of inlines and sample numbers", "why_tests_cant": "all files and selections, traces of differing lengths", "anchors": ["segpy-ext/segpy_numpy/segpy_numpy/extract.py:extract_xline_3d"]}
{"id": "C92", "title": "extract_trace gives the chosen samples of a trace", "statement": "extract_trace(reader, k, samples) gives the chosen samples of trace k of the file, in increasing order of sample number.", "quantifier": "all readers, trace indexes and selections of samples", "why_tests_cant": "all files and readers", "anchors": ["segpy-ext/segpy_numpy/segpy_numpy/extract.py:extract_trace"]}
{"id": "C93", "title": "Extracted trace header fields are those of the headers", "statement": "extract_trace_headers gives, for each named field, the values of that field in the headers of the chosen traces in order; extract_trace_header_field_3d gives them by inline and crossline, empty where there is no trace; an unacceptable stored value raises EOFError.", "quantifier": "all files, trace header formats, lists of fields and traces", "why_tests_cant": "all files, formats and field lists", "anchors": ["segpy-ext/segpy_numpy/segpy_numpy/extract.py:extract_trace_headers", "segpy-ext/segpy_numpy/segpy_numpy/extract.py:extract_trace_header_field_3d"]}
{"id": "C94", "title": "first and last", "statement": "first(xs) is the first item and last(xs) the last item of any non-empty iterable, whether or not it supports indexing; both raise ValueError for an empty one.", "quantifier": "all finite iterables", "why_tests_cant": "unbounded lengths; indexable and one-shot iterables", "anchors": ["segpy/util.py:first", "segpy/util.py:last"]}
{"id": "C95", "title": "Corners of a 2D catalog", "statement": "For a 2D catalog made by CatalogBuilder from items with distinct keys: key_min() and key_max() are the pairs of the least and of the greatest first and second indexes among the keys; value_first() and value_last() are the values of these keys, KeyError if there is no item there.", "quantifier": "all non-empty finite collections of ((i, j), value) items with distinct keys, in any order", "why_tests_cant": "unbounded collections; three catalog representations", "anchors": ["segpy/catalog.py:Catalog2D.key_min", "segpy/catalog.py:Catalog2D.key_max", "segpy/catalog.py:Catalog2D.value_first", "segpy/catalog.py:Catalog2D.value_last"]}
{"id": "C96", "title": "Header fields take the values of the standard", "statement": "Every value the SEG Y revision 1 standard defines for a coded or signed field of the binary or trace header can be assigned to that field; values it does not define are refused, except 0 (not given), scalar -1 and the end points of the clock; a new header has zero in every field except the documented defaults.", "quantifier": "all fields of the shipped headers whose values the standard lists or bounds, and all integers", "why_tests_cant": "two tables compared over all integers; tests assign a few values", "anchors": ["segpy/trace_header.py:TraceHeaderRev1", "segpy/binary_reel_header.py:BinaryReelHeader", "segpy/field_types.py:IntFieldMeta", "segpy/field_types.py:IntEnumFieldMeta"]}
{"id": "C97", "title": "The byte order governs the samples", "statement": "Written with endian '<' each sample has the bytes it has with endian '>' in reverse order; read with '<', reversed samples give the values the samples give when read with '>'.", "quantifier": "all sample types, lists of samples and byte contents", "why_tests_cant": "every sample type and every stored pattern", "anchors": ["segpy/toolkit.py:write_binary_values", "segpy/toolkit.py:read_binary_values", "segpy/toolkit.py:pack_values", "segpy/toolkit.py:unpack_values", "segpy/toolkit.py:pack_ibm_floats", "segpy/ibm_float_packer.py:unpack_ibm_floats"]}
{"id": "C98", "title": "Cache files stay where they are documented to be", "statement": "create_reader with a cache directory keeps its cache file in that directory if the path is absolute, else in that directory relative to the directory of the file; no call changes any other cache file or any other file, whatever it finds and however it ends.", "quantifier": "all calls of create_reader, files, names and states of the file system", "why_tests_cant": "all paths, cache contents and outcomes", "anchors": ["segpy/reader.py:_locate_cache_file", "segpy/reader.py:_load_reader_from_cache", "segpy/reader.py:_save_reader_to_cache", "segpy/reader.py:create_reader"]}
{"id": "C99", "title": "A cut-off file keeps what is left of it", "statement": "Of a file that create_reader opens, let only the first n bytes be left. With n below 3600 create_reader raises ValueError, with an incomplete extended header EOFError, with no complete trace header RuntimeError; otherwise it succeeds and the reader has the same reel headers and exactly the traces whose headers are left, with the same headers; a range of samples reads the same if it is left, and raises EOFError otherwise.", "quantifier": "all files that can be opened and every length they may be cut to (every point at which copying them may stop)", "why_tests_cant": "every cut point of every file", "anchors": ["segpy/reader.py:create_reader", "segpy/toolkit.py:catalog_traces", "segpy/toolkit.py:read_extended_textual_headers", "segpy/reader.py:SegYReader.trace_samples", "segpy/toolkit.py:read_binary_values"]}
{"id": "C100", "title": "Failed writing leaves the complete traces", "statement": "If write_segy raises because a header before the traces, or a trace, cannot be had or stored, the file holds the complete parts before it (and the header of the trace whose samples failed), whatever was in the file behind them is unchanged, and progress was reported for these traces only; read back, the file gives these traces, and a trace of which only the header was written as a trace whose samples raise EOFError.", "quantifier": "all datasets, failing at any trace or reel header, all former contents, encodings, formats and byte orders", "why_tests_cant": "every point of failure of every dataset", "anchors": ["segpy/writer.py:write_segy", "segpy/toolkit.py:write_textual_reel_header", "segpy/toolkit.py:write_binary_reel_header", "segpy/toolkit.py:write_extended_textual_headers", "segpy/toolkit.py:write_trace_header", "segpy/toolkit.py:write_trace_samples"]}
{"id": "C101", "title": "Arrays hold the samples exactly", "statement": "The element type the Numpy extension chooses for the samples of a file can hold every sample of the file exactly: every sample type has one, integers of 32, 16 and 8 bits and single floats are held as they are, and IBM floats are held exactly as single floats; the arrays for header fields hold every value of the field. (Refuted for IBM floats beyond the range of single precision.)", "quantifier": "all sample types, byte orders and stored samples, all header field types and values", "why_tests_cant": "every stored pattern of every type, in particular extreme magnitudes", "anchors": ["segpy-ext/segpy_numpy/segpy_numpy/dtypes.py:make_dtype", "segpy-ext/segpy_numpy/segpy_numpy/dtypes.py:NUMPY_DTYPES"]}
{"id": "C102", "title": "Mixed arithmetic is arithmetic of floats", "statement": "+, -, * and / between an IBMFloat and a float, in either order, give the float nearest to the exact result; an int operand counts as the float nearest to it. (Refuted for a float divided by an IBMFloat, which gives an IBMFloat.)", "quantifier": "all IBM float words, all floats (NaN and infinities included) and all ints", "why_tests_cant": "all pairs of operands; the types and roundings differ by operand order", "anchors": ["segpy/ibm_float.py:IBMFloat.__add__", "segpy/ibm_float.py:IBMFloat.__radd__", "segpy/ibm_float.py:IBMFloat.__sub__", "segpy/ibm_float.py:IBMFloat.__rsub__", "segpy/ibm_float.py:IBMFloat.__mul__", "segpy/ibm_float.py:IBMFloat.__rmul__", "segpy/ibm_float.py:IBMFloat.__truediv__", "segpy/ibm_float.py:IBMFloat.__rtruediv__"]}
{"id": "C103", "title": "Floor division and remainder", "statement": "x // y is the greatest integer not above the exact quotient and x % y is x - y * (x // y), on the side of zero of y and smaller than y; a zero divisor raises ZeroDivisionError. (Refuted for large quotients and for remainders of operands of different sign.)", "quantifier": "all pairs of IBM float words; IBM floats and floats for %", "why_tests_cant": "all pairs of words; errors show only when the quotient is near an integer", "anchors": ["segpy/ibm_float.py:IBMFloat.__floordiv__", "segpy/ibm_float.py:IBMFloat.__rfloordiv__", "segpy/ibm_float.py:IBMFloat.__mod__", "segpy/ibm_float.py:IBMFloat.__rmod__"]}
{"id": "C104", "title": "round() finds the nearest integer", "statement": "round(x) is the IBMFloat whose value is the integer nearest to x, the even one of two equally near, and never raises. round(x, n) is the IBMFloat, as in arithmetic, for the float nearest to the number with n decimal digits nearest to x.", "quantifier": "all IBM float words and numbers of digits", "why_tests_cant": "all 2^32 words, in particular the half-way cases", "anchors": ["segpy/ibm_float.py:IBMFloat.__round__"]}
{"id": "C105", "title": "Order against other numbers is numeric order", "statement": "<, <=, > and >= between an IBMFloat and an int or float, in either order, compare the exact values. (Refuted for ints beyond 2^53.)", "quantifier": "all IBM float words, all floats (NaN and infinities included) and all ints", "why_tests_cant": "unbounded ints and all pairs", "anchors": ["segpy/ibm_float.py:IBMFloat.__lt__", "segpy/ibm_float.py:IBMFloat.__le__", "segpy/ibm_float.py:IBMFloat.__gt__", "segpy/ibm_float.py:IBMFloat.__ge__"]}
{"id": "C106", "title": "A copy is the same byte for byte", "statement": "Writing a dataset that has been read, in the encoding and byte order it was read in, reproduces the file byte for byte. (Proved when every byte of the file belongs to text, a header field or a sample and no sample is NaN; refuted otherwise: header bytes outside all fields become zero and bytes after the last trace are dropped.)", "quantifier": "all files, encodings, byte orders, header formats, numbers of pages and traces, sample types", "why_tests_cant": "all file contents; whether anything is lost depends on bytes no accessor shows", "anchors": ["segpy/writer.py:write_segy", "segpy/reader.py:create_reader", "segpy/packer.py:make_header_packer", "segpy/toolkit.py:write_trace_samples"]}
{"id": "C107", "title": "Field types accept what they can store", "statement": "A field type declared with a SEG Y integer type accepts exactly the integers of that type (non-negative types from zero), or those within the bounds it was declared with, or the members of its enumeration; an enumeration with members outside the range of the type is refused with ValueError. A header whose field values have been accepted can be packed. (Refuted for field types declared with bounds beyond their C type.)", "quantifier": "all SEG Y integer types, bounds, enumerations and integers; all header formats made of such types", "why_tests_cant": "unbounded integers, bounds and formats", "anchors": ["segpy/field_types.py:IntFieldMeta", "segpy/field_types.py:IntEnumFieldMeta", "segpy/datatypes.py:LIMITS", "segpy/datatypes.py:SEG_Y_TYPE_TO_CTYPE"]}
{"id": "C108", "title": "Assigning numbers to header fields", "statement": "A header field that is assigned an int, float or IBMFloat holds that number, or the assignment raises ValueError (OverflowError for infinity) and leaves the header as it was; other fields never change. Assigning to a name that is not a field, such as a misspelt one, raises nothing and changes no field. (Proved for integral numbers; refuted for others, whose fraction is dropped silently.)", "quantifier": "all header formats, headers, fields, ints, floats (NaN and infinities included) and IBM floats", "why_tests_cant": "all numbers of all three types against all field types", "anchors": ["segpy/header.py:HeaderFieldDescriptor.__set__", "segpy/field_types.py:IntFieldMeta.class_new", "segpy/field_types.py:IntEnumFieldMeta.class_new", "segpy/ibm_float.py:IBMFloat.__trunc__"]}
{"id": "C109", "title": "Derived formats change only their own fields", "statement": "A header class derived from another reads the fields it does not redefine as the other does, and its own fields from their own places with their own types; a header readable with the base is readable with the derived class if the new types accept what is stored, and conversely. The custom binary reel header of the examples reads all the standard one reads, with the same values, and sample counts from 32768 to 65535, which the standard one refuses with ValueError.", "quantifier": "all base formats, sets of redefined fields, byte orders and buffers", "why_tests_cant": "unbounded formats and buffers", "anchors": ["segpy/header.py:FormatMeta", "segpy/packer.py:make_header_packer", "examples/custom_header.py:CustomBinaryReelHeader", "examples/custom_header.py:UInt16"]}
{"id": "C110", "title": "Header objects do not interfere", "statement": "The value of a field of a header is what was last successfully assigned to it, or the default value; making, changing or discarding other headers, of the same class or of related classes, has no effect on it, and a new header never shows values of one that is gone, even at the same address.", "quantifier": "all histories of making, assigning and discarding headers, all classes and ways of sharing field descriptors", "why_tests_cant": "the values of all headers are in dictionaries shared by the classes; interference depends on the history of allocation", "anchors": ["segpy/header.py:HeaderFieldDescriptor", "segpy/header.py:FormatMeta"]}
{"id": "C111", "title": "Converting the sample type", "statement": "A dataset converted to another sample type with the converting dataset of the examples and written is a file with the same text, pages, headers and traces, whose binary header differs in the format code only and whose samples are those of the source in the new type: integers truncated and clipped to the range, floats rounded or truncated. (Proved for samples the new type has room for; refuted for IBM samples beyond the 32-bit floats, for NaN and infinities converted to integers or IBM floats, and for the non-negative types, which have no format code.)", "quantifier": "all files, source and target sample types, encodings, byte orders and sample values", "why_tests_cant": "all values of all pairs of sample types, for files of any length", "anchors": ["examples/convert_sample_type.py:ConvertingDataset", "segpy/dataset.py:DelegatingDataset", "segpy/datatypes.py:LIMITS", "segpy/datatypes.py:PY_TYPES", "segpy/writer.py:write_segy"]}
{"id": "C112", "title": "Scaling samples", "statement": "A dataset whose samples are scaled with the scaling dataset of the examples and written is a file that differs in the samples only; each is the product with the factor, clipped to the range of the sample type. Scaling by one keeps the samples. (Proved for every factor and file: the exact condition under which the file can be written, and the samples read back. Refuted: an underflowing IBM product cannot be written, an overflowing product of an integer raises instead of being clipped, NaN becomes 3.402823e38 and so do the largest floats even when scaled by one.)", "quantifier": "all files, sample types, factors and sample values", "why_tests_cant": "all products of samples and factors, for files of any length", "anchors": ["examples/scale_samples.py:ScaledSamplesDataset", "segpy/dataset.py:DelegatingDataset", "segpy/datatypes.py:LIMITS", "segpy/writer.py:write_segy"]}
{"id": "C113", "title": "Scaling source coordinates", "statement": "A dataset whose source coordinates are scaled with the dataset of the examples and written is a file that differs in the fields source_x and source_y of the trace headers only; each is the product with the factor without its fraction. If a product is outside the range of the field, its trace header raises ValueError, or OverflowError if the product is infinite, and so does writing.", "quantifier": "all files, floats as factors (infinities and NaN included) and coordinates", "why_tests_cant": "all products of coordinates and factors, for files of any length", "anchors": ["examples/scale_source_coords.py:ScaledCoordinatesDataset", "segpy/header.py:HeaderFieldDescriptor.__set__", "segpy/writer.py:write_segy"]}
{"id": "C114", "title": "Time slices with missing and short traces", "statement": "The time slice example saves an array with a row for each inline and a column for each crossline, in ascending order. Each cell holds the sample at the given index of the trace there, or the null value if there is no such trace or it is too short. An index beyond the longest trace raises ValueError, a truncated trace EOFError, and a file that is not three-dimensional DimensionalityError. (Refuted for the last: KeyError is raised.)", "quantifier": "all files, sample types, byte orders and slice indexes", "why_tests_cant": "all files, and all sets of positions and trace lengths in them", "anchors": ["examples/timeslice.py:extract_timeslice", "segpy/reader.py:SegYReader3D"]}
{"id": "C115", "title": "Metadata and reports describe the file", "statement": "The commands metadata and report print, for every file that can be opened, the number of traces, the dimensionality, the sample format and the length of the longest trace, the revision, the number of distinct CDPs of a 2D file, the numbers of distinct inlines and crosslines of a 3D file, and the textual headers (each line of the first without its first three characters); they never raise.", "quantifier": "all readable files, header formats, encodings and byte orders", "why_tests_cant": "all files; which lines are printed depends on attributes the kind of reader has", "anchors": ["segpy/cli.py:handle_metadata", "segpy/cli.py:report", "segpy/dataset.py:Dataset.data_sample_format_description", "segpy/datatypes.py:SEG_Y_TYPE_DESCRIPTION", "examples/report.py:report_segy"]}
{"id": "C116", "title": "Listed trace positions are those stored", "statement": "The trace positions example lists one line for each trace, in file order, with the index and the two coordinates stored in the header of that trace, and raises EOFError if a header has a value that its field does not accept.", "quantifier": "all readable files, header formats with the two fields and byte orders", "why_tests_cant": "all files with any number of traces", "anchors": ["examples/trace_positions.py:extract_trace_positions", "segpy/reader.py:SegYReader.trace_header"]}
{"id": "C117", "title": "The result of a catalog builder depends only on its items", "statement": "Whatever sequence of add() and create() calls was made on a catalog builder, each create() returns what a builder which was just given the same items returns: earlier create() calls and the order in which items were added make no difference. A builder starts with the items of the mapping or the pairs of the series it was given; a series with an entry that is not a pair raises ValueError, anything else TypeError.", "quantifier": "all sequences of add() and create() calls with integer or pair keys, and all initial arguments", "why_tests_cant": "create() sorts the builder's list in place, up to four times, so results could depend on the history of calls", "anchors": ["segpy/catalog.py:CatalogBuilder"]}
{"id": "C118", "title": "Catalogs are mappings, equal when they hold the same items", "statement": "For every created catalog, items(), keys() and values() yield the items added, each once and in the same order as iteration, and get() returns the value of a key or the default. Two catalogs compare equal exactly when they hold the same items, whatever their representations.", "quantifier": "all sets of items with integer or pair keys", "why_tests_cant": "all pairs of representations and sets of items", "anchors": ["segpy/catalog.py:CatalogBuilder.create", "segpy/catalog.py:Catalog2D", "segpy/catalog.py:DictionaryCatalog"]}
{"id": "C119", "title": "A copy compares equal to its original", "statement": "A file that can be opened and read is copied, and the copy is opened with the same trace header format and the other arguments left out, so that the encoding is guessed again. Then the headers of each trace compare equal and so do its samples. (Refuted for samples that are not a number: they differ from themselves.) The comparison of two files fails if traces of the same number differ. With the format of the example, which adds fields for the last eight bytes of the trace headers, the copy has these bytes, too.", "quantifier": "all readable files and trace header formats, with samples of any type", "why_tests_cant": "all files; that the guess of the encoding is the same depends on every byte of the text", "anchors": ["examples/check_equal.py", "segpy/writer.py:write_segy", "segpy/reader.py:create_reader", "segpy/header.py:are_equal", "segpy/ibm_float.py:IBMFloat.__eq__"]}
{"id": "C120", "title": "Readers used by several threads", "statement": "Threads make calls of readers, in any order of their steps. Every answer a thread gets is the answer the same call gives alone, if no other thread reads traces through the same file object; and it gets all its answers. A reader may be shared for everything else: attributes that are computed once and kept are right in every schedule, and the files hold what they held. (Refuted for traces read through a shared file object, as with one reader: another seek may come between the seek and the read, and the samples of another trace are returned without an error.)", "quantifier": "all programs of calls, any number of threads, readers and file objects, all schedules", "why_tests_cant": "all interleavings of threads; the bad one is rare in a test run", "anchors": ["segpy/toolkit.py:read_trace_header", "segpy/toolkit.py:read_binary_values", "segpy/reader.py:SegYReader.trace_samples", "segpy/reader.py:SegYReader.trace_header", "segpy/reader.py:SegYReader.max_num_trace_samples", "segpy/reader.py:SegYReader3D.inline_numbers"]}
{"id": "C121", "title": "Processes that open the same file at once share the cache", "statement": "Processes open files with the same contents and arguments, with one cache directory; their steps come in any order and each may die between two steps. Each one that is not killed finishes, after a number of its own steps that depends only on the size of the cache file. It returns a reader made from the file, or the saved one, never one from a cache file that is incomplete; what a process that died has left is replaced. If nobody dies, the cache file is whole at the end, even if several processes wrote it at once. (Refuted: open() raises FileNotFoundError if the cache file is removed after the test whether it exists; with two processes writing at once a third may be given bytes with zeros between, and these stay if one of the two dies; with different pickles a mixture of both can be read.)", "quantifier": "all numbers of processes, all histories of their steps, deaths and removals of the cache file, all sizes of reads and writes", "why_tests_cant": "all interleavings of processes and all crash points", "anchors": ["segpy/reader.py:create_reader", "segpy/reader.py:_load_reader_from_cache", "segpy/reader.py:_save_reader_to_cache"]}
{"id": "C122", "title": "Where the file is positioned when it is opened or written", "statement": "Without a cache directory, the textual and binary reel headers are read from the position of the file object and everything else from byte 3600 of the file, so that the outcome is that of a file which begins with those headers; an encoding that is not given is guessed from the beginning of the file, and if there are fewer than 3600 bytes after the position, opening fails. With a cache directory the position makes no difference. write_segy writes the reel headers at the position and everything else from byte 3600 on; outcome and progress are those for an empty file. (Refuted: that the data may begin elsewhere in the file if the file object is positioned there, as both functions document.)", "quantifier": "all readable files, all positions, all datasets and all earlier contents of the file written to", "why_tests_cant": "all files and positions; tests open files at their beginning", "anchors": ["segpy/reader.py:create_reader", "segpy/writer.py:write_segy", "segpy/toolkit.py:read_extended_textual_headers", "segpy/toolkit.py:write_extended_textual_headers", "segpy/toolkit.py:guess_textual_header_encoding", "segpy/util.py:hash_for_file"]}
{"id": "C123", "title": "The struct format of a header and pickled packers", "statement": "The format string and the allocations that compile_struct returns can be used as its documentation says: the struct module accepts the format, its size is the length of the header, and each value unpacked is the one stored for every field that the allocation at the same index names; every field is named by exactly one allocation. Values packed with it are stored at the places of the fields, with zeros between. Packing and unpacking with the format string is what the packers do. A packer that was pickled and unpickled by the same version is the same; another version raises TypeError.", "quantifier": "all header formats whose fields do not start before the start offset, all lengths and byte orders, all buffers and values", "why_tests_cant": "all layouts: gaps, shared positions, paddings and lengths", "anchors": ["segpy/packer.py:compile_struct", "segpy/packer.py:make_header_packer", "segpy/packer.py:HeaderPacker.__getstate__", "segpy/packer.py:HeaderPacker.__setstate__", "segpy/datatypes.py:SEG_Y_TYPE_TO_CTYPE"]}
{"id": "C124", "title": "Writing a dataset over the file it is read from", "statement": "A dataset that is made trace by trace from a reader (as those of the examples are) is written to the file the reader reads, through another file object that sees what is written. If its traces come in their order, none of them is longer than it was and there are no more extended headers, then outcome, progress reports and the bytes written are those of a new file; what the old file had beyond them stays. Copying, scaling and conversion to a type that is not wider always meet these conditions. (Refuted: for wider samples later traces are overwritten before they are read, without an error; what is left of the old file can be read as further traces; a reader written to its own file object destroys the file, because reading moves the position.)", "quantifier": "all readable files, all datasets made trace by trace, all formats, byte orders, encodings and all points of the interleaving of reads and writes", "why_tests_cant": "all files, and every read comes after a different prefix of the writes", "anchors": ["segpy/writer.py:write_segy", "segpy/reader.py:SegYReader.trace_header", "segpy/reader.py:SegYReader.trace_samples", "segpy/dataset.py:DelegatingDataset", "examples/convert_sample_type.py", "examples/scale_samples.py"]}
{"id": "C125", "title": "What the commands do to files", "statement": "loadsave, convert_sample_type, scale_samples and scale_source_coords open the input, then the output, and write what they make of the one to the other. Arguments that ask for nothing give exit code 64, a file that cannot be opened 66 or 77, and then no file has changed. Otherwise no file but the output changes. The exit code is 0 exactly if the input is another file and reading, transforming and writing all succeed; then the output holds what writing the dataset to a new file gives, and opened again it has the same text and traces with just the headers and samples changed as asked (for a copy: byte by byte the same file, if nothing in it lies outside fields, text and samples). (Refuted: that the input is never changed: it is emptied if both names lead to one file; and that an output that cannot be made is left alone: it is emptied before the input is looked at.)", "quantifier": "all arguments, all file systems (links, directories, missing files, permissions), all contents of input and output", "why_tests_cant": "all contents of two files and all ways two names can be related", "anchors": ["examples/loadsave.py:main", "examples/loadsave.py:load_save", "examples/convert_sample_type.py:main", "examples/convert_sample_type.py:transform", "examples/scale_samples.py:main", "examples/scale_samples.py:transform", "examples/scale_source_coords.py:main", "examples/scale_source_coords.py:transform"]}
{"id": "C126", "title": "The percentages shown while files are copied", "statement": "The progress indicator, given values that increase from at least 0 to 1, prints percentages that increase strictly from at least 0 to 100, none of them twice; so it does whenever a dataset is written. The number shown is the whole part of the true percentage, or one less where that is a whole number. (Refuted: the latter exception happens, 29 of 100 is shown as 28; and while a file is opened, the numbers go 75, 93, 112, 131 and back to 100, whatever the file.)", "quantifier": "all sequences of reported values with numerators and denominators up to 2^53, all datasets, all readable files up to 2^51 bytes", "why_tests_cant": "all quotients: the claims depend on how two floating-point operations round", "anchors": ["examples/loadsave.py:make_progress_indicator", "examples/scale_source_coords.py:make_progress_indicator", "segpy/writer.py:write_segy", "segpy/reader.py:create_reader", "segpy/toolkit.py:catalog_traces"]}
{"id": "C127", "title": "What the commands that read do", "statement": "report, custom_header, timed_reader and trace_positions never change a file, whatever the arguments and however they end. Without a file name they end with exit code 64 (trace_positions: 2), if the file cannot be opened with 66 or 77. Otherwise the exit code is 0 exactly if the file can be opened as SEG Y and, for timed_reader, the samples of all traces are in the file, for trace_positions, all fields of the trace headers have allowed values; else it is 70. custom_header can report on every file report can and says the same; the further files it opens are exactly those which its format opens and whose binary reel header declares 32768 samples per trace or more, as a 16-bit unsigned number. timeslice changes no file unless the input is a 3D file whose traces are complete and the index is below the number of samples of the longest one; then it saves the slice, to the file named by its argument with .npy at the end (added if missing), touches no other file, and ends with 0, or 66 or 77 if that file cannot be opened.", "quantifier": "all arguments, all file systems and contents of files, all slice indexes", "why_tests_cant": "all contents of the file", "anchors": ["examples/report.py:main", "examples/report.py:report_segy", "examples/custom_header.py:main", "examples/custom_header.py:report_segy", "examples/timed_reader.py:main", "examples/timed_reader.py:read_traces", "examples/trace_positions.py:main", "examples/trace_positions.py:extract_trace_positions", "examples/timeslice.py:main", "examples/timeslice.py:extract_timeslice"]}
{"id": "C128", "title": "Comparing floats for being almost equal", "statement": "almost_equal(x, y, epsilon) does not depend on the order of x and y, and is False for NaN. For finite x and y and an epsilon that is a power of two between 2^-52 (the default) and 2^-2 it is True exactly if the true difference is at most epsilon times the greatest of 1, |x| and |y|: rounding does not show. What is within the bound is always accepted, and what is accepted exceeds it by at most one part in 2^52. A float that was converted to an IBM float and back is almost equal to itself with EPSILON_IBM_FLOAT. (Refuted: when both are below 1 a difference a little above the bound is accepted; an infinity is not almost equal to itself, but it is to every finite number and to the opposite infinity.)", "quantifier": "all pairs of floats, including NaN, infinities, zeros and subnormals; all epsilons 2^-2 to 2^-52; all floats an IBM float can represent", "why_tests_cant": "all pairs of floats: the claim is about how the operations round, at boundaries that random tests do not hit", "anchors": ["segpy/util.py:almost_equal", "segpy/ibm_float.py:EPSILON_IBM_FLOAT", "segpy/ibm_float.py:IBMFloat.from_float"]}
{"id": "C129", "title": "Printed headers, catalogs and sets", "statement": "What repr() gives for a header is a call of its class that, evaluated, makes a header with the same value in every field; two headers of a class are printed alike exactly if all their fields are equal. A RegularConstantCatalog and a SortedFrozenSet evaluate to an equal object. Every IBM float can be printed, as a call with its four bytes, and different bit patterns are printed differently. (Refuted: the text for a header whose format declares an inherited field again repeats that keyword, so it is a syntax error; the text for a LinearRegularCatalog has keywords that its class does not accept.)", "quantifier": "all headers of all formats, shipped or custom; all catalogs; all sets of ints; all 2^32 IBM floats and any way of printing floats", "why_tests_cant": "all field values and formats", "anchors": ["segpy/header.py:BaseHeader.__repr__", "segpy/catalog.py:RegularConstantCatalog.__repr__", "segpy/catalog.py:LinearRegularCatalog.__repr__", "segpy/sorted_frozen_set.py:SortedFrozenSet.__repr__", "segpy/ibm_float.py:IBMFloat.__repr__", "examples/custom_header.py:CustomBinaryReelHeader"]}
{"id": "C130", "title": "Formats with several base classes", "statement": "Whatever header format classes a program declares, with any bases and mixins, the field names of one of them are those of the classes met by going from the class to its first base, again and again up to BaseHeader, the oldest first; if a class on that way is not a format, asking for them raises AttributeError. A format derived from classes with one base each has all fields that any of them declares, and every attribute is found where it was declared last. (Refuted: a format with two bases lacks the fields of the second in everything it reads and writes, without an error, though they can be accessed; a format whose first base is a plain mixin cannot be used at all.)", "quantifier": "all sequences of class statements (any number of classes, bases, fields, mixins, sub-formats), under Python's C3 order of base classes", "why_tests_cant": "all class hierarchies; the tests declare one chain", "anchors": ["segpy/header.py:BaseHeader.ordered_field_names", "segpy/header.py:FormatMeta", "segpy/util.py:super_class"]}
{"id": "C131", "title": "Sub-formats have the attributes of their parent", "statement": "A format made with SubFormatMeta has the fields that were asked for, in this order, with type, offset and default as in the parent, and the parent's other public attributes, such as LENGTH_IN_BYTES. (Refuted: the attributes of older classes overwrite those of newer ones, so a sub-format of a format that redefines LENGTH_IN_BYTES has the length of the base and may be refused by the packer; an attribute of an ancestor also overwrites a field that was asked for. Exactly: the value is that of the last class searched; so copy() of a sub-format is always the one of BaseHeader, whatever the parent or its own body defines.) It can be made of any fields of the parent that classes derived from Header declare, and of no names that are not fields of it. (Refuted for fields of a mixin: AssertionError.) Only sub-formats can be derived from a sub-format.", "quantifier": "all sequences of class statements, all parents, all lists of field names, all names of attributes", "why_tests_cant": "all class hierarchies; the tests declare one chain", "anchors": ["segpy/header.py:SubFormatMeta", "segpy/header.py:is_public_non_field_attr", "segpy/util.py:collect_attributes"]}
{"id": "C132", "title": "Powers of IBM floats", "statement": "If x and y are IBM floats, y is a whole number n >= 0 and the n-th power of x is a float, then x ** y is its truncation to an IBM float, OverflowError if it is too large. So x ** 2 is x * x, and powers of whole numbers are exact below 2^24. If only one of them is an IBM float, the result is that float itself. x ** 0 is 1; zero to a negative power raises ZeroDivisionError. In all other real cases the result is the truncation of what C's pow finds, with the right sign. A negative number to a fraction gives a complex number; if that has no imaginary part, two IBM floats give zero or TypeError.", "quantifier": "all pairs of IBM floats, and of an IBM float and an int or float; all implementations of C's pow and of complex powers (the first three claims: those that find a power that is a float)", "why_tests_cant": "all 2^64 pairs of IBM floats, and every implementation of pow", "anchors": ["segpy/ibm_float.py:IBMFloat.__pow__", "segpy/ibm_float.py:IBMFloat.__rpow__", "segpy/ibm_float.py:IBMFloat.from_float_without_underflow"]}
{"id": "C133", "title": "What is read depends only on its own bytes", "statement": "Opening a file depends only on the bytes before the traces, on the length of the file and, in each trace header, on the bytes of file_sequence_num, ensemble_num, num_samples, inline_number and crossline_number: a file of the same length that differs in any other bytes opens as the same reader with the same progress reports. trace_header depends only on the 240 bytes of that header, and trace_samples only on the bytes of the samples asked for; this includes the exceptions they raise.", "quantifier": "all files that can be opened and all files of the same length, formats, byte orders, encodings and dimensionalities; all traces, ranges of samples and file positions", "why_tests_cant": "all pairs of files: it relates two runs", "anchors": ["segpy/reader.py:create_reader", "segpy/reader.py:SegYReader.trace_header", "segpy/reader.py:SegYReader.trace_samples", "segpy/toolkit.py:catalog_traces"]}
{"id": "C134", "title": "Samples and trace headers can be replaced in place", "statement": "If samples that the format can store are written with write_binary_values over samples of a trace, the file opens as the same reader as before, these samples are read as they were stored, and all other samples and all headers are what they were. If a header that gives the same number of samples, ensemble, inline and crossline is written with write_trace_header over the header of a trace, the file opens as the same reader, the header read has the fields of the one written, and all other headers and all samples are what they were.", "quantifier": "all files that can be opened, all traces, all ranges and all storable samples, all headers of the format", "why_tests_cant": "all files and all edits", "anchors": ["segpy/toolkit.py:write_binary_values", "segpy/toolkit.py:write_trace_header", "segpy/reader.py:create_reader", "segpy/reader.py:SegYReader.trace_samples", "segpy/reader.py:SegYReader.trace_header"]}
{"id": "C135", "title": "A written file is its parts one after the other", "statement": "write_segy makes of the text, the binary header, each extended header and each trace bytes that depend on that part alone, and puts them one after the other: datasets that agree give the same file, replacing a trace by one with as many samples changes only the bytes of that trace, and further traces only make the file longer.", "quantifier": "all datasets that can be written, pairs of datasets that differ in one trace or in the traces at the end, any former contents of the file and any progress callback", "why_tests_cant": "a relation between the files of every two datasets; a test compares the files of a few", "anchors": ["segpy/writer.py:write_segy", "segpy/toolkit.py:write_trace_header", "segpy/toolkit.py:write_trace_samples", "segpy/toolkit.py:write_extended_textual_headers"]}
{"id": "C136", "title": "Sorted sets together with other collections", "statement": "With a SortedFrozenSet of ints on either side, &, |, - and ^ with a set, a sequence or an iterator give the SortedFrozenSet of the items the operator stands for, and isdisjoint tells whether there is no common item; <=, <, >= and > with a set are the subset relations, and with something that is not a set raise TypeError; two sets are equal exactly if each is a subset of the other. (Refuted: a SortedFrozenSet is never equal to a set or frozenset with the same items.) + accepts only SortedFrozenSets.", "quantifier": "all SortedFrozenSets of ints, and all sets, sequences and iterators of ints, in either order", "why_tests_cant": "all pairs of collections of all types in either order; the methods come from two libraries", "anchors": ["segpy/sorted_frozen_set.py:SortedFrozenSet.__new__", "segpy/sorted_frozen_set.py:SortedFrozenSet.__eq__", "segpy/sorted_frozen_set.py:SortedFrozenSet.__contains__", "segpy/sorted_frozen_set.py:SortedFrozenSet.__add__"]}
{"id": "C137", "title": "A write that is stopped leaves a beginning of the file", "statement": "If the program is stopped at any point of write_segy, between writes or within one, the file is the former file with a beginning of the new contents written over it, and any beginning can be what is left. The traces that have been reported are in it, with all before them, and at most one more is begun; 1.0 is reported only when everything is. A new file left like this cannot be opened before the header of the first trace is complete; from then on it opens with the same reel headers and the traces whose headers are complete, their headers and samples are those of the dataset, and reading the samples of the last one raises EOFError if they are incomplete.", "quantifier": "all datasets, encodings, formats, byte orders and former contents of the file; every point at which the program is stopped (killed, or by a full disk), including inside each write", "why_tests_cant": "every crash point: tests run to the end", "anchors": ["segpy/writer.py:write_segy", "segpy/toolkit.py:write_textual_reel_header", "segpy/toolkit.py:write_binary_reel_header", "segpy/toolkit.py:write_extended_textual_headers", "segpy/toolkit.py:write_trace_header", "segpy/toolkit.py:write_trace_samples", "segpy/reader.py:create_reader"]}
{"id": "C138", "title": "Values and headers can be read at any place", "statement": "read_binary_values gives the values stored from the position on, which is the given one or the file's, in the given type and byte order, and leaves the file after them; it raises EOFError exactly if there are fewer bytes, and for a negative position ValueError without moving. A negative number of values makes it read everything and raise ValueError or AssertionError. read_trace_header does so for the header there, also raising EOFError if a value in it is invalid; read_binary_reel_header reads at the file's position and raises ValueError in both cases.", "quantifier": "all files, positions and file positions, types, byte orders, numbers of values, header formats", "why_tests_cant": "all combinations of file, position, type and count", "anchors": ["segpy/toolkit.py:read_binary_values", "segpy/toolkit.py:unpack_values", "segpy/toolkit.py:read_trace_header", "segpy/toolkit.py:read_binary_reel_header", "segpy/ibm_float_packer.py:unpack_ibm_floats"]}
{"id": "C139", "title": "A command that is stopped leaves a beginning of its output", "statement": "If one of the commands that write a SEG Y file (loadsave, convert_sample_type, scale_samples, scale_source_coords) is stopped at any time, then either no file is touched, or the output file is a beginning of what it would have been and no other file is touched; in particular the input is what it was, unless it is the output as well. Any beginning can be left, the empty one among them, whatever the output held before.", "quantifier": "all commands, arguments, file systems and every point at which the command is stopped, including inside each write", "why_tests_cant": "every crash point of every run", "anchors": ["examples/loadsave.py:main", "examples/convert_sample_type.py:main", "examples/scale_samples.py:main", "examples/scale_source_coords.py:main", "segpy/writer.py:write_segy"]}
{"id": "C140", "title": "A reader answers from the file as it now is", "statement": "After a file has been opened, whatever happens to its contents (it grows, is cut, is overwritten), the reader keeps the traces it found: trace_header(k) is the header that is now where trace k began when the file was opened, and EOFError if there is none; trace_samples(k, a, b) are the samples that are now where those of trace k were, and EOFError if they are not there; ValueError is raised for the same indexes and ranges as then. In particular a file can be opened while write_segy writes it: the reader has the traces whose headers were there when it was opened, their headers are those of the dataset, and their samples can be read as soon as all of them have been written, and raise EOFError before.", "quantifier": "all files that can be opened, all later contents, all traces and ranges; all datasets and all pairs of points of a write", "why_tests_cant": "all histories of the file after it has been opened, and all interleavings of a writer and a reader", "anchors": ["segpy/reader.py:create_reader", "segpy/reader.py:SegYReader.trace_header", "segpy/reader.py:SegYReader.trace_samples", "segpy/writer.py:write_segy"]}
{"id": "C141", "title": "Opening a file while it grows is opening it at one moment", "statement": "If bytes are added at the end of a file while create_reader opens it, at any points between its operations on the file, the outcome (the reader or the exception) is that of opening the file as it was at one moment during the opening, and the opening ends unless the file grows for ever. In particular a file can be opened while write_segy writes it, and the reader used while it goes on writing: it has the traces whose headers were complete at that moment, their headers are those of the dataset, and their samples can be read as soon as all of them have been written, and raise EOFError before. Likewise the hash that hash_for_file gives is that of the contents at one moment.", "quantifier": "all files, formats and arguments, and all ways in which the file grows between any two operations of the opening", "why_tests_cant": "all interleavings of an opening with another process that appends to the file", "anchors": ["segpy/reader.py:create_reader", "segpy/reader.py:_make_reader", "segpy/toolkit.py:catalog_traces", "segpy/toolkit.py:read_textual_reel_header", "segpy/toolkit.py:read_binary_reel_header", "segpy/toolkit.py:read_extended_textual_headers", "segpy/util.py:hash_for_file", "segpy/writer.py:write_segy"]}
{"id": "C142", "title": "File objects that give and take fewer bytes than asked", "statement": "A file object may give fewer bytes than it is asked for although there are more, and take fewer than it is given, as unbuffered file objects may. Reading through one gives the same result as through one that does not, or raises an exception; and so does writing. (False of opening: a short read of a trace header is taken for the end of the file, and the reader silently lacks the traces from there on; what is true is that the reader, or the exception, is that of a beginning of the file, or EOFError or ValueError. False of writing: write_segy returns normally. True of trace_header and trace_samples, which raise EOFError, and of hash_for_file, which gives the same hash.)", "quantifier": "all files, formats and arguments, and all numbers of bytes that the reads and writes give and take", "why_tests_cant": "all ways in which the operating system can split reads and writes", "anchors": ["segpy/reader.py:create_reader", "segpy/toolkit.py:catalog_traces", "segpy/toolkit.py:read_trace_header", "segpy/toolkit.py:read_binary_values", "segpy/toolkit.py:read_textual_reel_header", "segpy/util.py:hash_for_file", "segpy/writer.py:write_segy"]}
{"id": "C143", "title": "Opening with a cache while the file grows", "statement": "If bytes are added at the end of a file while create_reader opens it with a cache directory, at any points between its operations on the file, the reader is that of opening the file without a cache as it was at one moment, or what the cache holds for the contents at one moment; an exception is likewise that of one moment or of saving the reader. What is then in the cache is the reader of the contents it is kept for. (False: the file is hashed before it is scanned, so the reader of later contents is kept under the hash of earlier ones; a file that holds those earlier contents again is then given a reader with traces it does not have. True is that nothing else is wrong with the cache.)", "quantifier": "all files, formats, arguments and caches, and all ways in which the file grows between any two operations of the opening", "why_tests_cant": "all interleavings of an opening with another process that appends to the file", "anchors": ["segpy/reader.py:create_reader", "segpy/util.py:hash_for_file", "segpy/reader.py:_locate_cache_file", "segpy/reader.py:_load_reader_from_cache", "segpy/reader.py:_save_reader_to_cache"]}
{"id": "C144", "title": "The decimal form of a revision", "statement": "integer_to_decimal_revision gives, for the two bytes a and b of a revision code, the number a + b/10, so 1.2 for 0x0102, for any integer that of its lowest sixteen bits, and 0.0 or 1.0 for the revisions that files are read as; codes that differ are shown as different numbers. (False of codes whose second byte is ten or more: 0x010A is shown as 2.0, as 0x0200 is.)", "quantifier": "all integers", "why_tests_cant": "all revision codes and pairs of them", "anchors": ["segpy/revisions.py:integer_to_decimal_revision", "segpy/revisions.py:canonicalize_revision"]}
{"id": "C145", "title": "Names and sentences", "statement": "underscores_to_camelcase leaves out the underscores and writes every word between them with its first letter as a capital and the others small; first_sentence is the string up to and with its first full stop, or all of it; lower_first makes the first letter small and changes nothing else; is_magic_name holds exactly of the names made of two underscores, something and two underscores.", "quantifier": "all strings of ASCII characters", "why_tests_cant": "unbounded strings", "anchors": ["segpy/util.py:underscores_to_camelcase", "segpy/util.py:first_sentence", "segpy/util.py:lower_first", "segpy/util.py:is_magic_name"]}
{"id": "C146", "title": "The size of traces of equal length", "statement": "bytes_per_sample, samples_per_trace and trace_length_bytes give the size of a sample, the number of samples and the size of a trace that the binary reel header describes. In a file whose traces all have that number of samples trace k begins k such sizes after the first trace, only the last trace can be cut off, and the number of traces follows from the size of the file. The sizes of the sample formats and of the struct types are those of the standard; other formats are refused.", "quantifier": "all files that can be opened, in any encoding, byte order and header formats; all sample format codes and type names", "why_tests_cant": "unbounded numbers of traces and samples", "anchors": ["segpy/toolkit.py:bytes_per_sample", "segpy/toolkit.py:samples_per_trace", "segpy/toolkit.py:trace_length_bytes", "segpy/datatypes.py:data_sample_format_size_in_bytes", "segpy/datatypes.py:size_in_bytes"]}
{"id": "C147", "title": "Converting there and back", "statement": "What is written depends only on what is read: files that read the same are written as the same bytes in any encoding and byte order, however each of them is stored. So converting a file to one encoding and byte order and the result to another is converting it at once; a written file is not changed by copying it once more; and a file that was converted there and back again is the file itself if its direct copy is. (For files whose traces can all be read, and text both encodings have.)", "quantifier": "all files, encodings, byte orders, header formats whose coincident fields are of one type, machines' byte orders and progress callbacks", "why_tests_cant": "all contents of files and chains of conversions", "anchors": ["segpy/reader.py:create_reader", "segpy/writer.py:write_segy"]}
{"id": "C148", "title": "Converting the sample type there and back", "statement": "A number that samples of the new type can have is converted to itself; single precision floats can have an IBM float exactly if it is below their limit and a multiple of their smallest number, and both kinds of float can have every integer of 24 bits. So converting a file to a type that can have all its numbers, and the result, however it is read, back to the type of the first, gives a file with the text, the fields and the numbers of the first; for integer types that is the samples themselves.", "quantifier": "all files that can be opened and whose traces can be read, all pairs of sample types, encodings, byte orders and machines' byte orders", "why_tests_cant": "all samples of all files; there are 2^32 floats of each kind", "anchors": ["examples/convert_sample_type.py:transform", "examples/convert_sample_type.py:ConvertingDataset", "segpy/ibm_float.py:IBMFloat", "segpy/writer.py:write_segy"]}
{"id": "C149", "title": "Items and slices of a sorted set", "statement": "s[i] of a SortedFrozenSet is the item with exactly i smaller items, a negative i counts from the end, and every other number raises an IndexError; index is the inverse. s[a:b:c] is the SortedFrozenSet of the items at the places the slice picks, in increasing order even if the slice walks backwards, so that s[:] and s[::-1] are both s; a step of 0 raises a ValueError.", "quantifier": "all collections of numbers a set is made of, in any order and with repetitions; all indexes and all slices with any of the bounds and the step missing, negative or beyond the ends", "why_tests_cant": "unbounded sets, indexes and slices", "anchors": ["segpy/sorted_frozen_set.py:SortedFrozenSet.__getitem__", "segpy/sorted_frozen_set.py:SortedFrozenSet.index"]}
{"id": "C150", "title": "Scaling samples there and back", "statement": "A product of a sample and the factor that samples of the type can have, within the limits of the example, is exactly the sample that is written; IBM floats can have sixteen times an IBM float unless its exponent is the largest. So scaling a file by a factor with only such products, and the result, however it is read, by one over the factor, gives a file with the text, the fields and the numbers of the first.", "quantifier": "all files that can be opened and whose traces can be read, all sample types, all factors below 2^700 that have a reciprocal, encodings, byte orders and machines' byte orders", "why_tests_cant": "all samples, factors and files", "anchors": ["examples/scale_samples.py:transform", "examples/scale_samples.py:ScaledSamplesDataset", "segpy/ibm_float.py:IBMFloat", "segpy/writer.py:write_segy"]}
{"id": "C151", "title": "Scaling coordinates there and back", "statement": "Source coordinates whose products with the factor are integers of 32 bits are scaled exactly. So scaling the coordinates of a file by a factor with only such products, and the result, however it is read, by one over the factor, gives a file from which text, headers, samples and trace numbers are read as from the first.", "quantifier": "all files that can be opened and whose traces can be read, all factors below 2^700 that have a reciprocal, encodings, byte orders and machines' byte orders", "why_tests_cant": "all coordinates, factors and files", "anchors": ["examples/scale_source_coords.py:transform", "examples/scale_source_coords.py:ScaledCoordinatesDataset", "segpy/writer.py:write_segy"]}
{"id": "C152", "title": "Extremes, order and totals of IBM floats", "statement": "The minimum and maximum of IBM floats are the first of the smallest and the first of the largest by exact value; of none there are none. Sorting them gives the same words in ascending order of their exact values, words of one value in their first order. Their sum is a Python float: each is added in turn and each sum is rounded to the nearest double; the sum is exact when the values are multiples of one power of two whose magnitudes come to no more than 2^53 times that power, and of none it is 0. Floats in ascending order are encoded as IBM floats that sorting leaves alone, and the extremes of encoded floats have the values of the encoded extremes.", "quantifier": "all lists of IBM floats, normalised or not, of any length (of up to 2^53 for sums), and all lists of floats that can be encoded", "why_tests_cant": "all words and all lists of them", "anchors": ["segpy/util.py:minmax", "segpy/ibm_float.py:IBMFloat.__lt__", "segpy/ibm_float.py:IBMFloat.__gt__", "segpy/ibm_float.py:IBMFloat.__radd__"]}
