{"id": "C01", "title": "Variable codes pack and unpack losslessly", "statement": "Building a Varcode from F (0..3), X (0..63), Y (0..255) and taking its F, X, Y parts gives the three numbers back, and every 16-bit Varcode is rebuilt from its own parts.", "quantifier": "all F<4, X<64, Y<256 and all 16-bit codes", "why_tests_cant": "A test picks a few descriptors; the claim is about the whole code space.", "anchors": ["wreport/varinfo.h: WR_VAR, WR_VAR_F, WR_VAR_X, WR_VAR_Y"]}
{"id": "C02", "title": "Variable codes survive formatting and parsing", "statement": "varcode_parse(varcode_format(c)) == c for every Varcode c, and varcode_parse rejects a string whose characters 2..6 contain a non-digit.", "quantifier": "all 16-bit codes; all strings", "why_tests_cant": "Tests check a handful of descriptors; parsing errors hide in unusual strings.", "anchors": ["wreport/varinfo.cc: varcode_parse, varcode_format", "wreport/varinfo.h: WR_STRING_TO_VAR"]}
{"id": "C03", "title": "What the BUFR bit writer writes, the bit reader reads", "statement": "Writing any sequence of (value, width) fields with 1<=width<=32 and flushing produces the big-endian concatenation of the fields, zero padded to a byte; reading the same widths from the produced bytes returns each value modulo 2^width, whatever the starting bit offset.", "quantifier": "all field sequences of any length, all values, all widths 1..32", "why_tests_cant": "Field boundaries cross byte boundaries in unboundedly many ways.", "anchors": ["wreport/buffers/bufr.cc: BufrOutput::add_bits, BufrOutput::flush", "wreport/bufr/input.h: Input::get_bits, Input::skip_bits"]}
{"id": "C04", "title": "Reading bits never touches memory outside the message", "statement": "For every message buffer and every request, reading bits either returns the bits of the message or reports an error; it never reads past the end of the buffer.", "quantifier": "all buffers, cursors and widths", "why_tests_cant": "Memory safety on malformed input is about every input.", "anchors": ["wreport/bufr/input.h: Input::get_bits", "wreport/bufr/input.cc: Input::check_available_section_data"]}
{"id": "C05", "title": "Scaled decimal values survive conversion to double and back", "statement": "For every variable scale between -16 and 16 and every 32-bit integer, converting the integer to its double value and encoding that double back with IEEE binary64 arithmetic gives the same integer.", "quantifier": "all int32 values, all scales in -16..16, binary64 round-to-nearest-even arithmetic", "why_tests_cant": "2^32 x 33 combinations of rounding behaviour.", "anchors": ["wreport/varinfo.cc: _Varinfo::decode_decimal, _Varinfo::encode_decimal"]}
{"id": "C06", "title": "Numeric BUFR fields survive decoding and re-encoding", "statement": "For every scale, reference value and bit length 1..32, decoding a raw field to a double and encoding the double again gives the raw field; decoding a raw field and storing it in a variable, then encoding that variable, gives the raw field again.", "quantifier": "all raw values below 2^bit_len, all int32 reference values, scales -16..16", "why_tests_cant": "Rounding errors and off-by-one in range limits show only for particular combinations.", "anchors": ["wreport/varinfo.cc: _Varinfo::decode_binary, _Varinfo::encode_binary", "wreport/bufr/input.cc: Input::decode_number", "wreport/buffers/bufr.cc: BufrOutput::append_var"]}
{"id": "C07", "title": "A set numeric variable is always within its declared range", "statement": "After any sequence of operations on a numeric variable (seti, setd, setc, sets, setf, unset, assignment of compatible variables), the variable is either unset or its integer value lies between the minimum and maximum of its Varinfo.", "quantifier": "all histories of setter calls with any arguments and any domain-error options", "why_tests_cant": "An invariant over unbounded histories.", "anchors": ["wreport/var.cc: Var::assign_i_checked, Var::assign_d_checked, Var::seti, Var::setd, Var::setc, Var::sets, Var::unset", "wreport/options.h"]}
{"id": "C08", "title": "A refused value leaves the variable unset", "statement": "When a setter fails with a domain error, or the value is out of range while domain errors are silenced, the variable is unset afterwards and its attributes are untouched; with clamping the stored value is the nearest limit.", "quantifier": "all values, all option settings, all prior states", "why_tests_cant": "Combination of options and boundary values.", "anchors": ["wreport/var.cc: Var::assign_i_checked, Var::assign_d_checked", "wreport/options.h"]}
{"id": "C09", "title": "What is stored is what is read back", "statement": "seti(v) followed by enqi() returns v, setd(d) followed by enqd() returns the multiple of 10^-scale nearest to d (as a double), setc/sets followed by enqc/enqs returns the string cut to the variable's length.", "quantifier": "all values accepted by the setters, all variable definitions", "why_tests_cant": "Rounding and truncation for all values.", "anchors": ["wreport/var.cc: Var::seti, Var::enqi, Var::setd, Var::enqd, Var::setc, Var::enqc, Var::sets, Var::enqs"]}
{"id": "C10", "title": "Integer values survive conversion to text and back", "statement": "For every numeric variable, setting it from the text produced by enqs()/enqc() restores the same value.", "quantifier": "all int32 values in range", "why_tests_cant": "Digit conversion by hand-written code over the whole range, including the extremes.", "anchors": ["wreport/var.cc: count_digits, uint32_to_str, str_to_unsigned, int32_to_str, int32_to_stdstr, Var::setc"]}
{"id": "C11", "title": "Copies compare equal and are independent", "statement": "A copy-constructed, copy-assigned or move-assigned variable has the code, value and attributes of its source and compares equal to it; equality is an equivalence relation.", "quantifier": "all variables, including ones with attributes and unset ones", "why_tests_cant": "Relation laws quantify over all pairs and triples.", "anchors": ["wreport/var.cc: Var::Var, Var::operator=, Var::operator==, Var::copy_value, Var::move_value"]}
{"id": "C12", "title": "Attributes behave as a map keyed by code", "statement": "After any sequence of seta/unseta/clear_attrs calls, enqa(code) returns the last attribute set and not removed for that code, and nothing otherwise; iteration visits attributes by strictly increasing code; attributes never carry attributes of their own.", "quantifier": "all histories of attribute operations", "why_tests_cant": "Invariant over unbounded histories of a hand-written linked list.", "anchors": ["wreport/var.cc: Var::seta, Var::enqa, Var::unseta, Var::clear_attrs, Var::setattrs", "wreport/var.h: Var::next_attr"]}
{"id": "C13", "title": "diff counts differences consistently", "statement": "diff(a,a)==0; a diff of 0 means the two variables have the same code, value and attributes; the count does not depend on the argument order.", "quantifier": "all pairs of variables", "why_tests_cant": "Relation over all pairs.", "anchors": ["wreport/var.cc: Var::diff"]}
{"id": "C14", "title": "Table B lookup finds exactly the entries of the table", "statement": "For every loaded B table, contains(code) is true exactly for the codes in the table, and query(code) returns that entry or fails with error_notfound.", "quantifier": "all tables with any number of entries, all codes", "why_tests_cant": "Binary search correctness for any size.", "anchors": ["wreport/vartable.cc: Vartable::query, contains, query_entry, obtain"]}
{"id": "C15", "title": "Table D lookup finds exactly the entries of the table", "statement": "For every loaded D table sorted by code, query(code) returns exactly the opcodes listed for that code, or fails with error_notfound.", "quantifier": "all tables, all codes", "why_tests_cant": "Binary search correctness for any size.", "anchors": ["wreport/dtable.cc: DTable::query"]}
{"id": "C16", "title": "Altered variable definitions are exact, interned and non-interfering", "statement": "query_altered(code, scale, bits, ref) returns an entry for that code with exactly the requested scale, width and reference; the same request always returns the same entry; requests never change what other requests return.", "quantifier": "all histories of query_altered calls", "why_tests_cant": "Cache coherence over unbounded histories.", "anchors": ["wreport/vartable.cc: Vartable::query_altered, VartableEntry::get_alteration"]}
{"id": "C17", "title": "Descriptor slices partition the list and never go out of bounds", "statement": "head/next/sub/pop_left on a list of descriptors return exactly the corresponding sub-lists, or fail when the list is too short; no access is outside the list.", "quantifier": "all lists and offsets", "why_tests_cant": "Pointer arithmetic on all offsets.", "anchors": ["wreport/opcodes.h: Opcodes"]}
{"id": "C18", "title": "Template expansion follows table D and replication", "statement": "Processing a template visits the elements given by the WMO expansion: a D descriptor behaves as its inlined content, and a replication descriptor visits the following X descriptors Y times (or as many times as the delayed count says).", "quantifier": "all templates, all tables, any nesting depth", "why_tests_cant": "Unbounded nesting and repetition.", "anchors": ["wreport/bulletin/interpreter.cc: Interpreter::run, r_replication"]}
{"id": "C19", "title": "Table C operators apply to exactly the elements in their scope", "statement": "Width, scale and increase operators change the definition of every numeric element between the operator and its cancellation and of no other; after cancellation the definition is the one of table B again.", "quantifier": "all templates", "why_tests_cant": "Scopes interleave in unbounded ways.", "anchors": ["wreport/bulletin/interpreter.cc: Interpreter::get_varinfo, c_modifier"]}
{"id": "C20", "title": "Bitmaps select the right variables", "statement": "A data-present bitmap of N entries refers, in order, to the last N data elements before it, and the k-th value that follows is attached to the k-th element marked present.", "quantifier": "all subsets, bitmaps and lengths", "why_tests_cant": "Position arithmetic over arbitrary layouts with interleaved operator entries.", "anchors": ["wreport/bulletin/bitmaps.cc: Bitmap::Bitmap, Bitmap::next, Bitmaps::next"]}
{"id": "C21", "title": "Uncompressed BUFR data round-trips", "statement": "Decoding the data section produced by encoding a subset gives back the variables of the subset: same codes, same definitions and same values, in the same order.", "quantifier": "all templates, tables and subsets that the encoder accepts and whose values are representable", "why_tests_cant": "Quantifies over every template and every value.", "anchors": ["wreport/bufr_encoder.cc: DDSEncoder", "wreport/bufr/decoder.cc: UncompressedDecoderTarget, DataSectionDecoder", "wreport/bulletin/internals.cc"]}
{"id": "C22", "title": "Attributes attached through bitmaps round-trip", "statement": "Quality information and substituted values encoded through a bitmap are attached by the decoder to the same variables with the same values.", "quantifier": "all templates with bitmaps, all subsets", "why_tests_cant": "Interaction of positions, modifiers and attribute encoding.", "anchors": ["wreport/bufr_encoder.cc: DDSEncoder::define_attribute, define_substituted_value, define_bitmap", "wreport/bufr/decoder.cc: UncompressedDecoderTarget::decode_and_set_attribute"]}
{"id": "C23", "title": "Compressed BUFR data decodes to the same values as uncompressed data", "statement": "Decoding a compressed field (base value, difference width, differences) gives to subset i the value base+diff_i, a missing value when the difference is all ones, and the base to all subsets when the difference width is zero.", "quantifier": "all subset counts, bases, widths and differences", "why_tests_cant": "Quantifies over number of subsets and values.", "anchors": ["wreport/bufr/input.cc: decode_compressed_base, decode_compressed_number, decode_string, decode_compressed_bitmap"]}
{"id": "C24", "title": "Section headers of edition 4 messages round-trip", "statement": "Decoding the identification section produced by the encoder for edition 4 gives back centre, subcentre, update sequence number, category, subcategories, table versions and date.", "quantifier": "all header values in the range of their fields", "why_tests_cant": "All combinations of field values.", "anchors": ["wreport/bufr_encoder.cc: encode_sec1ed4", "wreport/bufr/decoder.cc: decode_sec1ed4"]}
{"id": "C25", "title": "Section headers of edition 2/3 messages round-trip", "statement": "Decoding the identification section produced for editions 2 and 3 gives back the fields that those editions can represent, including the year.", "quantifier": "all header values in range", "why_tests_cant": "The two-digit year convention must be right for every year.", "anchors": ["wreport/bufr_encoder.cc: encode_sec1ed3", "wreport/bufr/decoder.cc: decode_sec1ed3"]}
{"id": "C26", "title": "Encoded messages are well framed", "statement": "An encoded BUFR message starts with BUFR, ends with 7777, its declared total length is its length, its declared section lengths add up to it, and re-reading it finds the same sections.", "quantifier": "all bulletins", "why_tests_cant": "Lengths and padding for every content.", "anchors": ["wreport/bufr_encoder.cc: BufrBulletin::encode, encode_sec0..encode_sec4", "wreport/bufr/input.cc: scan_section_length, scan_lead_sections, scan_other_sections"]}
{"id": "C27", "title": "Messages are found in a stream", "statement": "Reading messages one after another from a file that contains encoded BUFR messages separated by other data returns exactly those messages, in order, and then end of file.", "quantifier": "all files made of messages and separators not containing a signature", "why_tests_cant": "Signature search must be right for every prefix.", "anchors": ["wreport/bulletin.cc: seek_past_signature, BufrBulletin::read, BufrBulletin::write"]}
{"id": "C28", "title": "CREX values round-trip", "statement": "Parsing the text produced for a CREX value gives back the value, for numbers (with sign), strings and missing values, with and without check digits.", "quantifier": "all values that fit the variable", "why_tests_cant": "All values and lengths.", "anchors": ["wreport/buffers/crex.cc: CrexOutput::append_var, CrexInput::parse_value", "wreport/crex_decoder.cc: CrexParser::read_variable"]}
{"id": "C29", "title": "CREX messages are found in a stream", "statement": "Reading CREX messages from a file that contains messages separated by other data returns exactly those messages.", "quantifier": "all files", "why_tests_cant": "The end marker state machine must be right for every text.", "anchors": ["wreport/bulletin.cc: CrexBulletin::read, CrexBulletin::write"]}
{"id": "C30", "title": "The closest table is selected", "statement": "Among the available tables, the one selected for a message is acceptable for it, no other acceptable table is strictly preferred to it, and an exact match always wins; the choice does not depend on the order in which tables are listed.", "quantifier": "all sets of available tables, all requested identifications", "why_tests_cant": "Order independence and maximality quantify over all sets.", "anchors": ["wreport/tableinfo.cc", "wreport/internals/tabledir.cc"]}
{"id": "C31", "title": "Unit conversion is invertible", "statement": "Converting a value from one unit to another and back gives the original value, for every pair of units the library converts between.", "quantifier": "all convertible unit pairs and all values", "why_tests_cant": "All pairs and values.", "anchors": ["wreport/conv.cc: convert_units, the conversion repository"]}
{"id": "C32", "title": "Code table conversions are inverse of each other", "statement": "Converting a WMO code to its BUFR code-table value and back gives the original code, for every code the forward conversion accepts.", "quantifier": "all code values", "why_tests_cant": "All values of several tables.", "anchors": ["wreport/conv.cc: convert_WMO0500_to_BUFR20012 and related, convert_BUFR08001_to_BUFR08042, convert_octants_to_degrees"]}
{"id": "C33", "title": "The validator accepts only encodable subsets", "statement": "When the pre-encoding check accepts a subset, encoding it succeeds and every numeric value fits its field without truncation.", "quantifier": "all templates and subsets", "why_tests_cant": "Soundness of a checker over all inputs.", "anchors": ["wreport/bulletin/dds-validator.cc", "wreport/bufr_encoder.cc"]}
{"id": "C34", "title": "Associated fields map to the right attribute", "statement": "The associated field value read for an element becomes the attribute that its significance code specifies, and encoding that attribute gives the same field value.", "quantifier": "all significance codes and values", "why_tests_cant": "All significance/value combinations.", "anchors": ["wreport/bulletin/associated_fields.cc: AssociatedField::make_attribute, get_attribute"]}
{"id": "C35", "title": "Data present bitmaps built by the library describe the attributes", "statement": "append_dpb for an attribute code marks as present exactly the variables that carry that attribute, and returns their number.", "quantifier": "all subsets", "why_tests_cant": "All subset layouts.", "anchors": ["wreport/subset.cc: Subset::append_dpb, append_fixed_dpb"]}
{"id": "C36", "title": "Decoding terminates with a result or an error", "statement": "Decoding any byte string terminates, either with a bulletin or with an error.", "quantifier": "all byte strings, all tables", "why_tests_cant": "Termination on every malformed input.", "anchors": ["wreport/bufr/decoder.cc", "wreport/crex_decoder.cc", "wreport/bulletin/interpreter.cc"]}
{"id": "C37", "title": "Bulletin subset store grows monotonically and keeps its content", "statement": "obtain_subset(n) makes the bulletin have at least n+1 subsets without altering existing ones; subset(n) of an existing subset always succeeds.", "quantifier": "all n, all bulletins", "why_tests_cant": "All histories.", "anchors": ["wreport/bulletin.cc: Bulletin::obtain_subset, Bulletin::subset"]}
{"id": "C38", "title": "Loaded table B definitions have consistent ranges", "statement": "For every table B entry the library accepts, the declared decimal and binary ranges contain only values that can be encoded in the entry's bit width and that differ from the missing value.", "quantifier": "all bit lengths, scales and reference values", "why_tests_cant": "All table entries, including local tables.", "anchors": ["wreport/varinfo.cc: _Varinfo::compute_range", "wreport/vartable.cc: BufrVartable loader"]}
{"id": "C39", "title": "Strings and binary data round-trip through BUFR", "statement": "A string value written to a BUFR field of the variable's width is read back identical (without trailing blanks); binary data is read back bit for bit; missing stays missing.", "quantifier": "all strings and binary values of all widths", "why_tests_cant": "All contents and lengths, including blanks and bit lengths that are not a multiple of eight.", "anchors": ["wreport/buffers/bufr.cc: append_string, append_binary, append_missing", "wreport/bufr/input.cc: decode_string, decode_binary"]}
{"id": "C40", "title": "Whole messages round-trip", "statement": "Decoding an encoded BUFR bulletin gives back its header, template and subsets.", "quantifier": "all bulletins that can be encoded", "why_tests_cant": "All bulletins.", "anchors": ["wreport/bufr_encoder.cc: BufrBulletin::encode", "wreport/bufr/decoder.cc: BufrBulletin::decode"]}
{"id": "C41", "title": "Comparison of bulletins", "statement": "Bulletin::diff is defined for every pair of bulletins, BUFR or CREX, does not depend on the order of the arguments, is 0 for a bulletin and itself, and is 0 exactly when the two have the same encoding, header, optional section, descriptors, tables and subsets with the same variables. A message that is decoded, encoded and decoded again shows no differences.", "quantifier": "all pairs of bulletins", "why_tests_cant": "Relation over all pairs of bulletins of any size.", "anchors": ["wreport/bulletin.cc: Bulletin::diff, BufrBulletin::diff_details, CrexBulletin::diff_details", "wreport/subset.cc: Subset::diff"]}
{"id": "C42", "title": "CREX messages round-trip", "statement": "Encoding a CREX message with one subset whose variables are those of its template, with values that fit the fields of the template, gives a text that decodes to the same header (but for what CREX does not carry), the same data descriptors and the same variables without attributes.", "quantifier": "every header, template, tables, and list of variables that fit; every decoding option", "why_tests_cant": "the text is a free mix of fixed-width numbers, signs, padded strings and slashes, and where one value ends depends on the value that follows: only an induction over the template shows that no combination is misaligned", "anchors": ["wreport/bulletin.cc: CrexBulletin::encode, CrexBulletin::decode", "wreport/crex_encoder.cc", "wreport/crex_decoder.cc", "wreport/buffers/crex.cc"]}
{"id": "C43", "title": "Decoding any CREX text ends", "statement": "Decoding any text as a CREX message ends with a message or an error.", "quantifier": "every list of bytes, every set of tables where no sequence contains itself", "why_tests_cant": "the decoder moves a pointer over attacker-controlled text, in loops whose exit depends on the next characters; tests try a handful of truncated messages", "anchors": ["wreport/crex_decoder.cc", "wreport/buffers/crex.cc", "wreport/buffers/crex.h"]}
{"id": "C44", "title": "Unit conversions agree with the definition of the units", "statement": "Converting a value from one unit to another multiplies it by the ratio of the two units in the SI (within the precision of the constants), shifts kelvin to Celsius by 273.15, and gives the octant closest to an angle.", "quantifier": "Every pair of units the library converts between, every finite value, and every order in which the sort of the conversion table may leave equal entries", "why_tests_cant": "There are about two hundred conversions, some listed twice with different factors, and which one is used depends on an unstable sort; tests look at a few values of a few pairs.", "anchors": ["wreport/conv.cc: convert_units, ConvertRepository", "wreport/conv.cc: convert_octants_to_degrees, convert_degrees_to_octants"]}
{"id": "C45", "title": "No history of operations on variables misuses memory", "statement": "Whatever sequence of constructions, copies, moves, assignments, setters, attribute operations and destructions a program performs on its variables, no memory is used after its release, released twice, read before being written or overrun; each variable has the value and attributes that the sequence gives it; and when all variables are destroyed no memory is left allocated.", "quantifier": "all finite histories of operations on any number of variables of any type, with attributes", "why_tests_cant": "Aliasing between buffers and attribute chains depends on the whole history; sanitizers only see the histories that are run.", "anchors": ["wreport/var.cc: Var::Var, Var::~Var, Var::operator=, copy_value, move_value, allocate, assign_b_checked, assign_c_checked, seta, unseta, setattrs, clear_attrs", "wreport/var.h: Var"]}
{"id": "C46", "title": "The tables that come with the library load, are consistent and lead to decoding that ends", "statement": "Every table B and table D file shipped with the library loads; its elements have usable widths and scales and are found by their code, and every number in the range of an element of up to 29 bits can be sent and arrives; its sequences are found by their code and no sequence contains itself; the tables of WMO versions 21 to 33 only name what they define. Whatever the order the directory is listed in, a BUFR header with master table 0 and a version up to 33 gets tables, those of the WMO of its version when its centre has none, and decoding any bytes with them ends. (The theorems say exactly which files and elements are exceptions, and prove that they are.)", "quantifier": "all the files of /repo/tables (82 files, 247371 lines), all elements and sequences in them, all table identifiers, all orders of listing the directory, all messages (any bytes)", "why_tests_cant": "Tests load a few tables and decode sample messages. That no sequence of any table contains itself, that all references are defined and all declared ranges can be encoded are statements about every line of every file, and the termination of decoding is about every message.", "anchors": ["tables/*.txt", "wreport/vartable.cc: Vartable::load_bufr, load_crex", "wreport/dtable.cc: DTable::load_bufr", "wreport/tables.cc: Tables::load_bufr", "wreport/internals/tabledir.cc: Table, BufrQuery, Tabledirs::find_bufr", "wreport/bulletin/bulletin.cc: BufrBulletin::load_tables"]}
{"id": "C47", "title": "Decoding the data section of arbitrary bytes is defined, but for what is listed", "statement": "Decoding any string of bytes as a BUFR message, its data section included, compressed or not, gives a bulletin or an error and never undefined behaviour, if three things are checked that the library does not check: that there are as many bits left as a value asks for, that a bitmap can be used and marks something, that compressed differences have at most 32 bits. Where none of these checks would stop the decoding, the library gives the same result as the decoder that checks. This is claimed for templates whose elements have 1 to 32 bits (or are texts) and reference values up to 2^30, where 203YYY has at most 31 bits and 207YYY does not overflow the reference values. With the tables that come with the library this is true of all templates without 207YYY, 203032 to 203254, 015028 and 008193.", "quantifier": "every string of bytes, every template (replications, delayed replications, bitmaps, associated fields, new reference values, sequences of any depth), every table, both values of the options, all orders the table directory is listed in", "why_tests_cant": "a decoder is given bytes that nobody wrote; tests and fuzzing run on some of them, and most of the undefined behaviour of reading past the end is silent", "anchors": ["wreport/bufr/input.h: Input::get_bits", "wreport/bufr/input.cc: Input::decode_number, decode_compressed_number", "wreport/bufr/decoder.cc", "wreport/bulletin/interpreter.cc", "wreport/bulletin/bitmaps.cc", "tables/*.txt"]}
{"id": "C48", "title": "What is decoded can be encoded and decoded again", "statement": "When a BUFR message can be decoded with the default options, the bulletin that is the result can be encoded with the same tables, and decoding that gives the same bulletin: header, optional section, descriptors and every variable with its attributes. This holds for any bytes the message is made of, under conditions on what was read: fields have 1 to 32 bits and values that fit an int, texts are not empty and do not end with blanks, each attribute is read once, new reference values are not 0 and agree with the definitions, the optional section is even, the header has master table 0 (edition 4) or a year up to 2050 (editions 2 and 3). With the tables that come with the library and templates without operators the conditions on definitions hold for all but ten elements. A message with compression gives the same bulletin without compression, under the same conditions, if there are no associated fields and the numbers of class 31 are inside their fields.", "quantifier": "every string of bytes that decodes, with or without compression, every table and template (operators 201 to 208, 222 to 237, associated fields, replications, sequences included), every number of subsets, all orders the table directory is listed in", "why_tests_cant": "messages are written by other programs; a round trip test starts from values that the library made itself, and can only try some messages", "anchors": ["wreport/bufr/decoder.cc", "wreport/bufr/bufr_encoder.cc", "wreport/bufr/input.cc: Input::decode_string, decode_number, decode_binary", "wreport/buffers/bufr.cc: BufrOutput", "wreport/bulletin.cc: BufrBulletin::decode, encode", "tables/*.txt"]}
{"id": "C49", "title": "Encoding any bulletin is defined: it gives bytes or an exception", "statement": "A program may put any variables in the subsets of a bulletin, in any number and order, whether or not they fit the descriptors. BufrBulletin::encode then either returns the bytes or throws, and it ends; it never reads outside a value or a bitmap, never shifts by more than the width of an int, and never converts a number that does not fit. This is so with five checks that the library does not make (width of what is not set, size of the number, length of texts and binary values, reference value of 203YYY different from zero, bitmaps that are complete and mark something). Without them the library has undefined behaviour exactly on the bulletins that the checks stop (for a bitmap that marks nothing: at most on them), and there is such a bulletin for each check.", "quantifier": "all bulletins whose variables were made by the library (any values, attributes, order, number), all templates without 207YYY above nine digits or 203YYY above 31 bits, all tables that load, all options whose hook is safe; also with each of the tables that come with the library", "why_tests_cant": "tests encode bulletins that were built for their template; the space of mismatches between variables and descriptors, with operators that change width, scale and reference value, cannot be enumerated, and undefined behaviour often shows no symptom", "anchors": ["wreport/bufr_encoder.cc: BufrBulletin::encode, DDSEncoder, encode_sec4", "wreport/buffers/bufr.cc: BufrOutput::append_var, add_bits, append_string, append_binary", "wreport/varinfo.cc: _Varinfo::encode_binary", "wreport/bulletin/internals.cc: UncompressedEncoder", "wreport/bulletin/bitmaps.cc: Bitmap, Bitmaps"]}
{"id": "C50", "title": "The text of a value is read back as the same value", "statement": "The text that Var::format gives for a variable, given to Var::setf of a variable with the same definition, makes it equal to the first: numbers are written with all their decimals and no digit is lost, texts are copied, an unset variable gives the empty text and is unset again. Binary values are written as their bytes in hexadecimal, which no other value shares. The overload that writes on a FILE writes the same text. Exceptions: numbers whose text is longer than 19 characters are cut by format (not by the FILE overload) and read back as other numbers; an empty text reads back as unset; setf refuses binary variables. With the tables that come with the library only B24001 and B24002 have numbers that long.", "quantifier": "all variables (any definition, any value in range, set or not), all options of setf, any C library whose %.*f prints the nearest decimal number and whose strtod gives the nearest double; all elements of all tables that come with the library", "why_tests_cant": "whether printing and reading lose a digit depends on the rounding of every one of the 2^32 values with each of the 33 scales; tests format a handful", "anchors": ["wreport/var.cc: Var::format (both overloads), Var::setf, Var::enqd, Var::setd"]}
{"id": "C51", "title": "Threads that use tables already in use do not disturb each other", "statement": "When a program has done some jobs (loading the tables for a message, asking for definitions, altered definitions, sequences and unit conversions, in any order that may depend on the answers) with one thread, any number of threads may do the same jobs at the same time: there is no data race, nothing blocks, and each job gives what it gave the first time, pointers included. What one thread gets does not depend on what was done before. Without the first run this is false: two threads that load tables first, even different ones, race; and two threads that ask for the same new altered definition race and can get two different pointers for it.", "quantifier": "all sets of jobs (adaptive, with any answers and exceptions), all environments (directories, files), any number of threads, all interleavings of their single accesses to shared memory", "why_tests_cant": "a race shows only under some schedules, and the number of interleavings is unbounded; tests run with one thread", "anchors": ["wreport/vartable.cc: Vartable::load_bufr, Vartable::load_crex, query_altered", "wreport/dtable.cc: DTable::load_bufr, DTable::load_crex", "wreport/internals/tabledir.cc: Tabledirs::get, Index::find_bufr, Index::find_crex", "wreport/tables.cc: Tables::load_bufr, Tables::load_crex", "wreport/conv.cc: convert_units"]}
{"id": "C52", "title": "Settings made for a scope last as long as the scope", "statement": "Options overridden with options::local_override, and the target of notes set with notes::Collect, are as before when control leaves the scope, normally or with an exception, at any depth of nesting. Everything in the scope is done with the newest setting alive there. While domain errors are silent, setting numbers throws no domain error. The destructor of notes::Collect has undefined behaviour when there was no target before.", "quantifier": "all programs made of nested scopes, overrides, try blocks, settings of variables, notes and exceptions; all states of the thread", "why_tests_cant": "the ways in which scopes, exceptions and overrides of several options can be nested are unbounded", "anchors": ["wreport/options.h: LocalOverride, local_override", "wreport/notes.h: Collect", "wreport/notes.cc: set_target, logf", "wreport/var.cc: assign_i_checked, assign_d_checked"]}
{"id": "C53", "title": "Encoding any bulletin as CREX is defined", "statement": "CrexBulletin::encode ends and has no undefined behaviour whatever variables the subsets hold, also when they are not those the template asks for: it writes a message or throws. This holds with CREX tables whose elements have no more than 254 characters (all those of the library), templates without 201YYY below 128, 207YYY above 9, 208YYY above 251 and bitmaps, and values that are not binary nor the smallest int. Outside of that it is undefined exactly where one of three checks (255 characters formatted at a time, the characters of a value and those of a bitmap are there) would stop it.", "quantifier": "all bulletins with any variables as the library makes them, all templates, all CREX tables, all headers", "why_tests_cant": "the combinations of templates and variables that do not match them are unbounded, and reading past a buffer need not show in a test", "anchors": ["wreport/crex_encoder.cc: CrexBulletin::encode, CREXEncoder", "wreport/buffers/crex.cc: CrexOutput::append_var, raw_appendf", "wreport/bulletin/interpreter.cc: get_varinfo, c_modifier"]}
{"id": "C54", "title": "Operators of table C in CREX templates", "statement": "In a CREX template 201YYY gives the elements that follow a width of YYY characters and 202YYY a scale of YYY; 208YYY gives texts YYY characters; YYY = 000 ends it. The library does the last two. It never gives the width of 201YYY: it adds YYY - 128 bits to definitions that have no bits, so that numbers cannot be read or written if YYY is below 128 or above 160, and texts get more than 536 million characters if it is below 128. After 202YYY no number can be read or written, and texts have no characters.", "quantifier": "all tables that load as CREX tables, all their elements, all YYY but 128, all templates that begin so, all uses of the template (decoding, encoding, any visitor)", "why_tests_cant": "the claim is about each element of each table and each operand; the tests of the library have a few", "anchors": ["wreport/bulletin/interpreter.cc: c_modifier, get_varinfo", "wreport/vartable.cc: query_altered, digits_per_bits", "wreport/varinfo.cc: set_crex"]}
{"id": "C55", "title": "What was decoded from CREX can be encoded and decoded again", "statement": "When a CREX message decodes, encoding what was decoded gives a message that decodes to the same header, template and variables. This holds for messages of one subset without check digits and without NUL bytes, with the default options for values out of range, if the definitions have from 1 to 253 characters and a range that fits in them, and the counts B31001, B31002, B31011 and B31012 can be written with four digits so that they are read back. With the CREX tables of the library and a template without operators only the last is needed. It does not hold with two subsets, with check digits, with NUL bytes, with a local subcategory 255, with counts of three characters, and when counts out of range are replaced.", "quantifier": "all texts, all templates, all CREX tables, all headers, all options", "why_tests_cant": "the texts that decode are unbounded and most of them are not texts that the library writes: spaces, widths and signs differ", "anchors": ["wreport/crex_decoder.cc: CrexBulletin::decode, DataSectionDecoder", "wreport/crex_encoder.cc: CrexBulletin::encode, DDSEncoder", "wreport/buffers/crex.cc: CrexInput::parse_value, CrexOutput::append_var", "wreport/bulletin/interpreter.cc"]}
{"id": "C56", "title": "Decoded variables agree with their definitions", "statement": "Whatever the bytes and the template, every variable and every attribute that decoding a BUFR message (compressed or not) or a CREX message gives agrees with its definition: a number is in the range of the definition, a text is not longer than it and has no NUL character, a binary value has its size; the attributes are in the order of their codes, without repetitions. This holds with any options, with hooks that keep variables consistent, and with all the BUFR tables of the library. The only exception: when values out of range are replaced by the nearest limit and the range is empty (a reference value given in the message), a value is one of the limits. So whatever was decoded can be given to the BUFR and CREX encoders, with any template and tables, within the conditions of C49 and C53.", "quantifier": "all byte strings, all templates, all tables loaded from files, all options", "why_tests_cant": "operators change the definitions in unboundedly many ways, and messages can have any bytes", "anchors": ["wreport/bufr/decoder.cc: UncompressedDecoderTarget, CompressedDecoderTarget", "wreport/bufr/input.cc", "wreport/crex_decoder.cc: DataSectionDecoder", "wreport/var.cc: Var::setd, Var::seti, Var::setc, Var::sets, Var::assign_d_checked"]}
{"id": "C57", "title": "Listing of a template and scan of its features", "statement": "If print_datadesc gives a listing of a data descriptor section, it is that of the one tree that the descriptors form with table D: a line per descriptor in the order of the template, with the descriptor, what an element is or an operator does, and with what is inside a sequence or a replication two columns to the right. The feature scan (wrep --features) gives exactly the operators and kinds of replication of that tree, each once, in order. Both are made, whatever the tables and the nesting, for the templates whose operators the two classes implement; two templates with the same listing are equal, except for the length of data present bitmaps and for factors that are not written. Refuted for all templates: a message with 205YYY in its template decodes but the template cannot be listed, and templates with 203YYY or 204YYY cannot be scanned.", "quantifier": "all templates, all tables, all nestings, all starting columns", "why_tests_cant": "templates nest without limit and operators combine; that two different templates never look the same is a statement about all pairs", "anchors": ["wreport/bulletin/interpreter.cc: Printer, Interpreter::run", "wreport/bulletin/dds-scanfeatures.cc: ScanFeatures", "wreport/bulletin.cc: Bulletin::print_datadesc", "src/output.cc: PrintFeatures"]}
{"id": "C58", "title": "Printing of a message along its template", "statement": "If print_structured ends, each subset was printed along the template: the lines are those of its descriptors, each after the sequences and replications it is in, replicated as many times as the factors printed say, and the variables of the subset are printed in order from the first, each with its number. The subsets decoded from a BUFR message can always be printed, with all their variables, each once, whatever the bytes of the message, if the template has no 203YYY (nor 204YYY if it is compressed). A line tells the subset, the number, the descriptors above and the descriptor. Refuted for all templates: a message with new reference values is decoded and print_structured throws; so does a compressed one with associated fields of significance 0; the lines of attributes have the number of the variable minus one; the line of a missing attribute or associated field has no end.", "quantifier": "all messages, tables, templates, nestings, numbers of subsets, settings for values out of range", "why_tests_cant": "what is printed depends on the template, the replications and the bitmaps of each message; that printing never fails on what decoding accepts is a statement about all byte strings", "anchors": ["wreport/bulletin/dds-printer.cc: DDSPrinter", "wreport/bulletin.cc: Bulletin::print_structured", "wreport/bulletin/internals.cc: BaseDDSExecutor", "wreport/var.cc: Var::print"]}
{"id": "C59", "title": "Python and Lua programs read the values they stored", "statement": "wreport.Var(info, value) holds the value given: an int in range reads back as that int (raw for decimal variables), a float as the nearest number the variable can hold, a str that fits as that str, bytes as those bytes; values out of range, of the wrong type and unknown keys raise the documented exceptions, unset variables raise KeyError or give the default. The value read from any variable makes an equal variable. Attributes set are found, listed in order and removed; a code read from a variable is a key for attributes and tables; == and != are equality and its opposite. Lua sees the same values, and nil for unset variables.", "quantifier": "all definitions, all Python ints, floats, strs and bytes, all variables and attributes, all table files", "why_tests_cant": "The Python tests use a handful of ASCII texts and small numbers; truncation, encodings and missing terminators show only on values nobody thought of.", "anchors": ["python/var.cc: var_value_from_python, var_value_to_python, VarDef", "python/vartable.cc: VartableDef", "python/common.cc: set_wreport_exception", "python/utils/values.cc", "wreport/var-lua.cc"]}
{"id": "C60", "title": "The program wrep handles every message of its files", "statement": "wrep finds the same messages in a file whatever it is asked to do with them, and ends on every file and command line. -U copies to its output exactly the messages that cannot be decoded, whole and in order, and its output given back to it is copied unchanged. --print writes one line per subset of every message that can be decoded, with the values of the codes asked for in the order asked for; -T one title and one line per message; -s prints every message along its template, -D only the template, -F its features, -L the list of the tables. A message that cannot be decoded, or a file that is missing or broken, is reported and does not stop the others; the long and short forms of an option mean the same; the exit status tells whether something failed.", "quantifier": "all files, all command lines, all lists of codes, whatever the decoders answer", "why_tests_cant": "The program has no tests; files with broken messages in any position and all combinations of options cannot be enumerated.", "anchors": ["src/wrep.cc: main", "src/options.cc: Options::init_varcodes, BulletinHeadHandler, BulletinFullHandler", "src/input.cc: read_bufr_raw, read_crex_raw", "src/output.cc: PrintContents, PrintStructure, PrintDDS, PrintTables, PrintFeatures", "src/iterate.cc: PrintVars", "src/unparsable.cc: CopyUnparsable"]}
{"id": "C61", "title": "The printed text of a bulletin tells what is in it", "statement": "Printing a BUFR or CREX bulletin, a subset or a variable writes one line for the header, for the tables, for each descriptor, for the details of the encoding and for each variable and attribute, in order, with code, description, unit and value. Two bulletins that print the same text have the same header, the same descriptors and the same variables and attributes with the same values in the same subsets; every bulletin that a decoder returns can be printed; files and C++ streams get the same text.", "quantifier": "all bulletins with any headers, descriptors, subsets, attributes and values, any tables and any two bulletins compared", "why_tests_cant": "That no two different bulletins share a text, and that printing succeeds after every decode, range over pairs of bulletins and over all messages; a test compares a few outputs.", "anchors": ["wreport/bulletin.cc: Bulletin::print, BufrBulletin::print_details, CrexBulletin::print_details", "wreport/subset.cc: Subset::print", "wreport/var.cc: Var::print, Var::print_without_attrs, Var::format(FILE*)"]}
{"id": "C62", "title": "Encoded text is decoded to what it was", "statement": "Base64, URL and C string encoding of any text gives a text of the right alphabet from which the decoder returns exactly the original; the decoder of Base64 returns the bytes of every text written according to RFC 4648, and the decoder of C strings tells where the closing quotes are.", "quantifier": "all byte strings of any length, and all Base64 texts written by others", "why_tests_cant": "The round trip must hold for every sequence of bytes, every length modulo 3 and every place of a character that needs an escape; a test shows a few texts.", "anchors": ["wreport/utils/string.cc: encode_cstring, decode_cstring, encode_url, decode_url, encode_base64, decode_base64, invbase64"]}
{"id": "C63", "title": "Splitting, stripping and paths", "statement": "Splitting a text at a separator gives the pieces between its occurrences, which joined give back the text, with the empty ones left out on request; joined items are split again. strip removes the spaces around a text and nothing else. normpath returns the shortest path to the same place and leaves its own results alone; joinpath leads along all its arguments; dirname and basename joined lead to the file.", "quantifier": "all texts, separators, lists of items and paths", "why_tests_cant": "Separators that overlap, empty pieces, any number of slashes, dots and parents in any order: the cases are unbounded, and tests list a few paths.", "anchors": ["wreport/utils/string.h: Split, startswith, endswith, join, joinpath", "wreport/utils/string.cc: lstrip, rstrip, strip, basename, dirname, appendpath, normpath, Split::const_iterator"]}
{"id": "C64", "title": "A value copied into a variable with another definition is converted", "statement": "Copying the value of a variable into one with another definition unsets it if the source is unset, gives the same value if the definitions are the same, stores the same number exactly if the new definition can represent it, with more or fewer decimals, and the nearest one otherwise, after converting it to the unit of the new definition; a number out of its range is refused. Copied to a definition with more decimals and back, the value is the original. Kelvin and Celsius are converted exactly. Units without a conversion give an error and leave the destination alone. A text variable receives the text of the source, cut to its length; a binary one the bytes of the source.", "quantifier": "all definitions, values, units, orders of the conversion table that sorting may leave, and options", "why_tests_cant": "Whether scaling and converting in floating point ends on the exact integer depends on the rounding of every one of the 2^32 values under every pair of scales and units.", "anchors": ["wreport/var.cc: Var::setval, Var::Var(Varinfo, const Var&), Var::setd, assign_d_checked, assign_c_checked, assign_b_checked, enqc, enqd", "wreport/conv.cc: convert_units"]}
{"id": "C65", "title": "What the library says about its tables is what it does", "statement": "The explanation of the choice of a table lists every table of the directories in order with the best one so far, and ends with the table that a request would get, whatever was requested before; explaining, listing, and looking up by name change no later choice. The printed identifier of a table determines its kind and all its fields. The list of tables has one line per table with its directory and file name. A table looked up by name is the file of that name in the first directory that has it, if its name is that of a table. Different tables are read from different files.", "quantifier": "all contents of directories, all histories of calls, all identifiers", "why_tests_cant": "The explanation runs a second search beside the caches: that the two always agree is a statement about all histories and all directory contents.", "anchors": ["wreport/internals/tabledir.cc: Table::Table, Query::explain_search, Query::explain_result, Index::explain_find_bufr, Index::explain_find_crex, Index::find, Index::print, Tabledirs", "wreport/tableinfo.cc: BufrTableID::print, CrexTableID::print", "src/wrep.cc: LIST_TABLES"]}
{"id": "C66", "title": "A decoding that tells what it does gives what a decoding gives, and tells it", "statement": "Decoding a message with a description of the steps gives the same bulletin, the same tables and the same section ends as decoding it, and fails with the same error when that fails. The description is the concatenation of what is told of the subsets, in order: every element has a line with its descriptor, its description and unit and a line with its value (a dash when missing), every operator a line, sequences and replications are indented by their nesting and delayed replications say the factor that was read. With compression every line of values has the values of all the subsets, in order. (The text is stated for templates without 203YYY, 204YYY, bitmaps and their operators; the sameness for all.)", "quantifier": "all byte strings, tables, options, with and without compression", "why_tests_cant": "The description is made by a second decoder that overrides most steps of the first and looks at the variables that were just stored: that it never changes a result, and never looks at a variable that is not there, must hold for every template and data.", "anchors": ["wreport/bufr/decoder.cc: VerboseDataSectionDecoder, print_last_variable_added, print_last_attribute_added", "wreport/bulletin.cc: BufrBulletin::decode_verbose", "wreport/bulletin/interpreter.cc: print_c_modifier"]}
{"id": "C67", "title": "Python programs find definitions and tables by what they say", "statement": "What Vartable[key] returns has a code that is itself a key of the table, for the same definition, and str() is that code; the type is one of four names and names it alone; unit and repr() are the text of the definition. Vartable.get_bufr and get_crex, given numbers that messages can have, choose the table that a message with those numbers chooses, raise KeyError when there is none, and ValueError when no version is given; numbers that no message can have are refused.", "quantifier": "all tables, all keys, all definitions, all directories of tables, all ints given as arguments", "why_tests_cant": "The tests ask for a handful of tables and codes; what numbers out of range do, and whether every code is a key, needs all of them.", "anchors": ["python/varinfo.cc: VarinfoDef and its getters", "python/vartable.cc: get_bufr, get_crex, mp_subscript", "wreport/varinfo.cc: vartype_format, vartype_parse", "wreport/tableinfo.h: BufrTableID, CrexTableID", "wreport/vartable.cc: Vartable::get_bufr, Vartable::get_crex"]}
{"id": "C68", "title": "The flags of a sounding level keep their meaning when converted", "statement": "In each of the three conversions of the significance of a level (from AOF to 008042, from 008001 to 008042 and back), a flag of the result is set exactly when one of the flags of the argument with the same meaning is set, the missing flag gives the value with all the flags set, and flags with no correspondent are dropped.", "quantifier": "all values of the flags, and every flag of the result", "why_tests_cant": "The existing tests try a few values; the claim is about every combination of flags, and a pair of conversions wrong in the same way would still be inverse of each other.", "anchors": ["wreport/conv.cc: convert_AOFVSS_to_BUFR08042, convert_BUFR08001_to_BUFR08042, convert_BUFR08042_to_BUFR08001", "wreport/codetables.h: BUFR08001, BUFR08042"]}
{"id": "C69", "title": "Messages are written as the WMO formats prescribe, not only so that the library reads them back", "statement": "For a template of elements, sequences, replications (delayed ones too) and changes of width, scale, reference value and length, a BUFR bulletin encodes to the prescribed sections byte by byte, and its data section is the fields of the subsets one after the other with no gap: each number less its reference value in as many bits as its definition says with the most significant first, missing values with all the bits set, texts padded with blanks; and zeroes up to an even number of bytes. An uncompressed BUFR message of any producer whose data section holds the fields so, and then anything, decodes to those subsets. A CREX bulletin encodes to the prescribed header, a line for each subset with each number in as many digits as its definition says, missing values as slashes, counts of repetitions with four digits, and the end of the message; and the data of a CREX message of any producer with one subset, with any blanks and new lines between the values, decode to those values.", "quantifier": "all bulletins with any number of subsets and elements, all tables, all values that fit in their fields", "why_tests_cant": "Tests compare with what the library itself reads, or with a few messages; an encoder and a decoder wrong in the same way agree with each other.", "anchors": ["wreport/bulletin/bufr_encoder.cc: BufrBulletin::encode", "wreport/buffers/bufr.cc: BufrOutput::append_var", "wreport/bulletin/crex_encoder.cc: CrexBulletin::encode", "wreport/buffers/crex.cc: CrexOutput::append_var"]}
