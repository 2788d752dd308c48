{"id": "C01", "title": "Opening a volume: geometry is validated exactly", "statement": "Ntfs::new succeeds exactly when the first 512 bytes can be read and form a boot sector with signature 55 AA, a power-of-two sector size in 512..4096, a supported sectors-per-cluster code, a cluster size in 512..2 MiB, a supported file record size code, a nonzero MFT LCN, and products that fit in 64 bits; the returned object then reports exactly sector_size, cluster_size = sectors per cluster * sector size (a power of two), size = total_sectors * sector_size, mft_position = mft_lcn * cluster_size (nonzero), serial_number and file_record_size from the sector. Any other content gives an error, never a panic.", "quantifier": "every device content, every device cursor position and every fault-free schedule of short reads", "why_tests_cant": "2^4096 boot sectors; interactions of two independently range-checked fields and unchecked multiplication cannot be enumerated", "anchors": ["src/ntfs.rs Ntfs::new", "src/boot_sector.rs BiosParameterBlock", "src/boot_sector.rs BootSector::validate", "src/types.rs Lcn::position"]}
{"id": "C02", "title": "Record fix-up restores exactly the bytes that were protected", "statement": "If a record was protected by replacing the last two bytes of each 512-byte block with an update sequence number and saving the originals in the update sequence array, reading it returns the original record bytes, byte for byte (outside the array itself nothing changes).", "quantifier": "every record content, update sequence number, array offset and block count that fits", "why_tests_cant": "the fix-up rewrites positions computed from two attacker-controlled fields; only a proof covers all offsets and counts, including an array that overlaps a block end", "anchors": ["src/record.rs Record::fixup", "src/file.rs NtfsFile::new", "src/index_record.rs NtfsIndexRecord::new"]}
{"id": "C03", "title": "Torn writes are detected and nothing else is altered", "statement": "Fix-up succeeds only if the last two bytes of every covered 512-byte block equal the update sequence number; on success every byte that is not one of these block ends is unchanged, the length is unchanged, and each block end holds the corresponding array entry. If some covered block end differs, an UpdateSequenceNumberMismatch error is returned.", "quantifier": "every record buffer of any length and any content", "why_tests_cant": "a torn write can hit any subset of blocks; absence of collateral changes is a statement about all byte positions", "anchors": ["src/record.rs Record::fixup"]}
{"id": "C04", "title": "Fix-up never panics on records up to 64 KiB", "statement": "For every buffer of at least 8 and at most 65535 bytes fix-up returns Ok or one of its four errors and does not panic. (For larger records the 16-bit array start computation can overflow.)", "quantifier": "every buffer content and length in the range", "why_tests_cant": "needs a bound argument over all offset/count combinations", "anchors": ["src/record.rs Record::fixup", "src/record.rs Record::update_sequence_array_start"]}
{"id": "C05", "title": "Data runs decode to the cluster extents they encode", "statement": "For every list of extents (cluster count >= 1; sparse, or at a nonzero absolute LCN different from that of the previous data extent - C08 is about the others) and every legal mapping-pairs encoding of it (any sufficient byte width 1..8 per field), iterating the data runs returns exactly these extents in order, as (byte position, byte length), and then ends.", "quantifier": "every extent list, every choice of field widths, every cluster size, every trailing bytes after the terminator", "why_tests_cant": "unbounded lists of variable-width signed deltas", "anchors": ["src/attribute_value/non_resident.rs NtfsDataRuns::next", "src/attribute_value/non_resident.rs read_variable_length_signed_integer", "src/types.rs Lcn::checked_add"]}
{"id": "C06", "title": "Data run iteration always ends and is fused", "statement": "On any bytes, iterating data runs yields at most as many extents as there are bytes, never panics, and after the first None every further call returns None. After an error, every further call returns an error again.", "quantifier": "every byte string and every number of further calls", "why_tests_cant": "all byte strings and all call sequences", "anchors": ["src/attribute_value/non_resident.rs NtfsDataRuns::next"]}
{"id": "C07", "title": "Every extent reported is cluster aligned and non-empty", "statement": "Every data run returned from any byte string has an allocated size that is a positive multiple of the cluster size below 2^64 and a position that is either absent (sparse) or a positive multiple of the cluster size below 2^64.", "quantifier": "every byte string, cluster size and iteration step", "why_tests_cant": "arithmetic over all 64-bit values", "anchors": ["src/attribute_value/non_resident.rs NtfsDataRuns::next", "src/types.rs Lcn::position"]}
{"id": "C08", "title": "An extent that starts at cluster 0 is real data", "statement": "A data run whose absolute LCN is 0 (e.g. the $Boot file, which covers the boot sector) refers to the bytes at the start of the volume, so reading it returns these bytes.", "quantifier": "every extent list containing an extent at LCN 0", "why_tests_cant": "a corner value among 2^64 LCNs; also interacts with the 'no position' representation", "anchors": ["src/attribute_value/non_resident.rs NtfsDataRuns::next", "src/types.rs NtfsPosition::new"]}
{"id": "C09", "title": "Reading a non-resident value returns the file's bytes", "statement": "A read with an n-byte buffer at stream position p returns exactly the bytes [p, min(p+n, L)) of the file content, where the content is the concatenation of the extents' bytes on disk (zeros for sparse extents) cut at the value's length and L its length; the stream position advances by exactly that count.", "quantifier": "every extent list inside the device, every value length, every position, every buffer size, every short-read schedule of the device", "why_tests_cant": "the reader loops over extents and short reads with two coupled cursors; all interleavings and sizes matter", "anchors": ["src/attribute_value/non_resident.rs NtfsNonResidentAttributeValue::read", "src/attribute_value/non_resident.rs StreamState::read_data_run", "src/attribute_value/non_resident.rs NtfsDataRun::read"]}
{"id": "C10", "title": "Seeking in a non-resident value", "statement": "seek(Start n / Current d / End d) returns n, position+d, or length+d and sets the stream position to it; if the target is negative or exceeds 2^64-1 it returns an InvalidInput error and leaves the reader unchanged.", "quantifier": "every value, every current position, every seek argument", "why_tests_cant": "seek is implemented by three different strategies (skip forward, rewind, translate) that must agree for all 64-bit arguments", "anchors": ["src/attribute_value/non_resident.rs NtfsNonResidentAttributeValue::seek", "src/attribute_value/non_resident.rs StreamState::optimize_seek", "src/attribute_value/non_resident.rs StreamState::simplify_seek"]}
{"id": "C11", "title": "A non-resident value behaves as a cursor over a byte string for every history", "statement": "For every sequence of reads and seeks, the results equal those of the same sequence on an in-memory cursor over the content: same bytes, same counts, same positions, same seek errors.", "quantifier": "every finite history of operations, every short-read schedule, every extent list and length", "why_tests_cant": "an unbounded set of operation histories; stale-run bugs appear only after specific histories (read to end, then seek)", "anchors": ["src/attribute_value/non_resident.rs NtfsNonResidentAttributeValue"]}
{"id": "C12", "title": "The reported data position is the disk position of the next byte", "statement": "After a successful seek to p inside the allocated size, data_position() is the absolute disk position of byte p of the value (or None inside a sparse extent); at or beyond the allocated size it is None. The same holds after a read that stops inside the value.", "quantifier": "every extent list, every seek history ending at p", "why_tests_cant": "depends on which run is current after any history", "anchors": ["src/attribute_value/non_resident.rs NtfsNonResidentAttributeValue::data_position", "src/attribute_value/non_resident.rs NtfsDataRun::data_position"]}
{"id": "C13", "title": "An I/O error during a read does not corrupt later reads", "statement": "If the device fails during a read, the read returns that error and the reader stays consistent: its stream position names the next byte it will deliver, and later reads return the right bytes for that position. The std::io::Read contract (an error means no bytes were consumed) additionally requires the stream position to be unchanged.", "quantifier": "every fault point in every history", "why_tests_cant": "faults can occur at any device call", "anchors": ["src/attribute_value/non_resident.rs NtfsNonResidentAttributeValue::read", "src/traits.rs NtfsReadSeek::read_exact"]}
{"id": "C14", "title": "Interrupted device calls are transparent for read_exact", "statement": "read_exact on an attribute value returns the correct next n bytes even if device reads are interrupted (ErrorKind::Interrupted) any finite number of times, as it is documented to behave like std::io::Read::read_exact.", "quantifier": "every placement of interruptions", "why_tests_cant": "schedules of interruptions are unbounded", "anchors": ["src/traits.rs NtfsReadSeek::read_exact", "src/attribute_value/non_resident.rs NtfsNonResidentAttributeValue::read"]}
{"id": "C15", "title": "A truncated device never yields misplaced bytes", "statement": "If the device ends before an extent does, reads of the value return a correct prefix of the content or an error, never bytes belonging to a different stream offset.", "quantifier": "every device length and extent list", "why_tests_cant": "requires considering every truncation point", "anchors": ["src/attribute_value/non_resident.rs StreamState::read_data_run"]}
{"id": "C16", "title": "A resident value behaves as a cursor over its bytes", "statement": "For every history of reads and seeks a resident value returns the same results as an in-memory cursor over its bytes and never panics.", "quantifier": "every value, every history, all 64-bit seek arguments", "why_tests_cant": "unbounded histories and 64-bit arithmetic", "anchors": ["src/attribute_value/resident.rs NtfsResidentAttributeValue", "src/attribute_value/mod.rs seek_contiguous"]}
{"id": "C17", "title": "read_exact fills the buffer or reports UnexpectedEof", "statement": "On a fault-free device read_exact(n) returns exactly the next n bytes and advances by n when at least n bytes remain, and otherwise returns UnexpectedEof.", "quantifier": "every value kind, position, n and short-read schedule", "why_tests_cant": "loop over arbitrarily short reads", "anchors": ["src/traits.rs NtfsReadSeek::read_exact"]}
{"id": "C18", "title": "Raw attribute iteration ends and stays inside the record", "statement": "On any record, iterating the raw attributes ends (or reports an error) after at most record_length/16 + 1 steps, never panics, each attribute returned lies inside the record and starts where the previous one ended, iteration stops at the end marker, and it is fused.", "quantifier": "every record content and length, every number of further calls", "why_tests_cant": "attribute lengths are attacker controlled 32-bit values", "anchors": ["src/attribute.rs NtfsAttributesRaw::next", "src/attribute.rs NtfsAttribute::validate_attribute_length"]}
{"id": "C19", "title": "Attribute names and resident values never reach outside their attribute", "statement": "Whenever name() or the resident value is returned, it is exactly the sub-range of the attribute's own bytes given by the offset and length fields; inconsistent fields give an error.", "quantifier": "every record and attribute", "why_tests_cant": "all combinations of 16-bit offsets and 32-bit lengths", "anchors": ["src/attribute.rs NtfsAttribute::name", "src/attribute.rs NtfsAttribute::resident_value", "src/attribute.rs NtfsAttribute::validate_resident_value_sizes"]}
{"id": "C20", "title": "Attribute accessors do not panic on hostile records", "statement": "For every record accepted by the crate, every attribute returned by iteration can be queried (type, name, value, length) without a panic.", "quantifier": "every record content", "why_tests_cant": "hostile inputs are unbounded", "anchors": ["src/attribute.rs NtfsAttribute", "src/attribute.rs validate_attribute_length"]}
{"id": "C21", "title": "Top-level attribute lookup returns the first match", "statement": "info(), volume_info(), volume_name() and internal lookups return the first attribute in record order with the requested type (and name and instance if given), skip non-matching ones, and report AttributeNotFound exactly when the record contains no such attribute before its end.", "quantifier": "every record and query", "why_tests_cant": "quantifies over all attribute sequences", "anchors": ["src/file.rs NtfsFile::find_resident_attribute", "src/file.rs NtfsFile::info", "src/ntfs.rs Ntfs::volume_name"]}
{"id": "C22", "title": "Flattened iteration equals raw iteration when there is no attribute list", "statement": "For a record without $ATTRIBUTE_LIST attributes(), and hence data(), name() and directory_index(), see exactly the raw attributes, in order, without touching the device.", "quantifier": "every record", "why_tests_cant": "all attribute sequences", "anchors": ["src/attribute.rs NtfsAttributes::next"]}
{"id": "C23", "title": "File records are read from the MFT position of their number", "statement": "Ntfs::file(n) reads the record stored at byte offset n * file_record_size of the MFT's data (following the MFT's extents), and success implies FILE signature, valid fix-up and consistent sizes; n whose offset overflows or lies in no extent gives InvalidFileRecordNumber.", "quantifier": "every MFT extent layout and every 64-bit record number", "why_tests_cant": "MFT fragmentation layouts and record numbers are unbounded", "anchors": ["src/ntfs.rs Ntfs::file", "src/file.rs NtfsFile::new"]}
{"id": "C24", "title": "Records that straddle two MFT extents", "statement": "When a file record crosses from one MFT extent into the next (cluster size smaller than the record size), Ntfs::file returns the record's bytes from both extents.", "quantifier": "every MFT layout", "why_tests_cant": "requires fragmentation at sub-record granularity", "anchors": ["src/ntfs.rs Ntfs::file"]}
{"id": "C25", "title": "File reference split", "statement": "The record number and sequence number of a file reference are the low 48 and high 16 bits of its 8 little-endian bytes; together they determine the reference.", "quantifier": "every 8-byte string", "why_tests_cant": "2^64 inputs", "anchors": ["src/file_reference.rs NtfsFileReference"]}
{"id": "C26", "title": "Index node iteration ends and stays in bounds", "statement": "Iterating the entries of an index node of any content ends, each entry lies inside the node's data, entries are consecutive, the entry with the LAST flag is the final one, and iteration is fused.", "quantifier": "every node content", "why_tests_cant": "attacker-controlled entry lengths", "anchors": ["src/index_entry.rs IndexNodeEntryRanges::next", "src/index_entry.rs NtfsIndexNodeEntries::next", "src/index_entry.rs NtfsIndexEntry::new"]}
{"id": "C27", "title": "Directory iteration lists every entry once, in order", "statement": "For a well-formed index B-tree of any shape (including unbalanced ones), NtfsIndexEntries returns exactly its keyed entries in in-order sequence and then None forever; if the tree is sorted the listing is ascending.", "quantifier": "every tree shape, depth and fan-out", "why_tests_cant": "trees are unbounded; the traversal uses two synchronised stacks", "anchors": ["src/index.rs NtfsIndexEntries::next"]}
{"id": "C28", "title": "Index lookup is sound and complete on sorted trees", "statement": "For a sorted B-tree and a comparison consistent with its order, find returns an entry comparing Equal if one exists in the tree, and None if none exists.", "quantifier": "every sorted tree, every key", "why_tests_cant": "unbounded trees and keys", "anchors": ["src/index.rs NtfsIndexFinder::find"]}
{"id": "C29", "title": "Index operations terminate", "statement": "find and directory iteration return after finitely many steps for every on-disk index.", "quantifier": "every index content including cyclic subnode references", "why_tests_cant": "non-termination is not observable by a finite test run", "anchors": ["src/index.rs NtfsIndexFinder::find", "src/index.rs NtfsIndexEntries::next"]}
{"id": "C30", "title": "Index code does not panic on hostile index data", "statement": "For every $INDEX_ROOT value and every index record read from disk, constructing the index, iterating and finding return results or errors and never panic.", "quantifier": "every byte content of root and records", "why_tests_cant": "hostile inputs are unbounded", "anchors": ["src/structured_values/index_root.rs NtfsIndexRoot", "src/index_record.rs NtfsIndexRecord", "src/index_entry.rs NtfsIndexEntry"]}
{"id": "C31", "title": "Case-insensitive comparison is a total preorder", "statement": "upcase_cmp compares two names as the lexicographic order of their upper-cased UTF-16 code units: it is reflexive, antisymmetric under swapping (for both string kinds), transitive, total, and Equal exactly when the upper-cased sequences coincide; it never panics once the table is loaded.", "quantifier": "every table and every pair/triple of names", "why_tests_cant": "laws over all triples of strings", "anchors": ["src/upcase_table.rs upcase_cmp_iter", "src/upcase_table.rs UpcaseOrd"]}
{"id": "C32", "title": "$UpCase table loading", "statement": "read_upcase_table succeeds only for a $DATA value of exactly 131072 bytes and stores entry i = little-endian u16 at byte 2i, so that lookups of any code unit are in range.", "quantifier": "every $UpCase content", "why_tests_cant": "65536 entries times all contents", "anchors": ["src/upcase_table.rs UpcaseTable::read", "src/ntfs.rs Ntfs::read_upcase_table"]}
{"id": "C33", "title": "Timestamp conversions", "statement": "Converting a timestamp to a calendar time and back is the identity; converting a calendar time to a timestamp succeeds exactly for times whose 100 ns interval count since 1601 fits u64, is monotone, and truncates by less than one interval; times before 1601 are rejected.", "quantifier": "every 64-bit timestamp and every representable calendar time", "why_tests_cant": "2^64 inputs and rounding towards zero around the Unix epoch", "anchors": ["src/time.rs NtfsTime"]}
{"id": "C34", "title": "SystemTime conversion does not overflow", "statement": "Converting any SystemTime after 1970 either returns the interval count since 1601 or an error.", "quantifier": "every SystemTime", "why_tests_cant": "overflow only at extreme values", "anchors": ["src/time.rs TryFrom<SystemTime>"]}
{"id": "C35", "title": "Structured values decode exactly the documented bytes", "statement": "$STANDARD_INFORMATION, $FILE_NAME, $VOLUME_INFORMATION, $VOLUME_NAME, $OBJECT_ID decode each field from its documented offset, reject values that are too short (or too long), and never panic on any bytes.", "quantifier": "every value content and length", "why_tests_cant": "all byte strings", "anchors": ["src/structured_values/standard_information.rs", "src/structured_values/file_name.rs", "src/structured_values/volume_information.rs", "src/structured_values/volume_name.rs", "src/structured_values/object_id.rs"]}
{"id": "C36", "title": "Attribute list iteration", "statement": "Iterating an $ATTRIBUTE_LIST returns its entries in order with exactly the encoded fields and names, and ends on every content.", "quantifier": "every list content, resident or non-resident", "why_tests_cant": "attacker-controlled entry lengths", "anchors": ["src/structured_values/attribute_list.rs NtfsAttributeListEntries"]}
{"id": "C37", "title": "A value split over connected attributes reads as one stream", "statement": "For a value whose extents are spread over several attributes listed consecutively in an attribute list, reading and seeking behave as a cursor over the concatenation of all extents cut at the data size.", "quantifier": "every split into attributes, every history of operations", "why_tests_cant": "unbounded number of attributes, runs and operations", "anchors": ["src/attribute_value/attribute_list_non_resident.rs NtfsAttributeListNonResidentAttributeValue"]}
{"id": "C38", "title": "Readers on one device can be used in alternation", "statement": "Interleaving operations on several values that share one filesystem reader gives each value the same results as using it alone.", "quantifier": "every interleaving of two histories", "why_tests_cant": "unbounded interleavings", "anchors": ["src/traits.rs NtfsReadSeek"]}
{"id": "C39", "title": "Cluster and position arithmetic", "statement": "Lcn::checked_add, Lcn::position, Vcn::offset and position addition return the mathematically exact result or report overflow; a VCN offset is never truncated.", "quantifier": "all 64-bit arguments", "why_tests_cant": "2^128 argument pairs", "anchors": ["src/types.rs Lcn", "src/types.rs Vcn", "src/types.rs NtfsPosition"]}
{"id": "C40", "title": "Index records are looked up by VCN", "statement": "record_from_vcn(v) returns the fixed-up record stored at byte offset v*cluster_size of the allocation and only if its header carries the same VCN; out-of-range VCNs give an error.", "quantifier": "every allocation content, record size and VCN", "why_tests_cant": "all 64-bit VCNs and contents", "anchors": ["src/structured_values/index_allocation.rs NtfsIndexAllocation::record_from_vcn"]}
{"id": "C41", "title": "GUID formatting", "statement": "Displaying a GUID yields the canonical 8-4-4-4-12 upper-case hexadecimal form that determines the GUID.", "quantifier": "every GUID", "why_tests_cant": "2^128 inputs", "anchors": ["src/guid.rs NtfsGuid::fmt"]}
{"id": "C42", "title": "Sector-aligned reader returns the same bytes as the underlying device", "statement": "The SectorReader helper returns, for every history of seeks and reads, the bytes of the underlying device at the requested positions while only issuing sector-aligned accesses.", "quantifier": "every history, sector size and device", "why_tests_cant": "unbounded histories", "anchors": ["examples/ntfs-shell/sector_reader.rs SectorReader"]}
{"id": "C43", "title": "Reading any value terminates", "statement": "read and seek on a non-resident value return (a result or an error) after finitely many steps, bounded in terms of the mapping pairs' length and the device's behaviour, and do not panic for positions below 2^64 - whatever the mapping pairs, the sizes in the header and the device do.", "quantifier": "every mapping pairs byte string (malformed ones included), value size, history of operations and device schedule, faults included", "why_tests_cant": "termination on hostile input is a statement about all byte strings and all histories", "anchors": ["src/attribute_value/non_resident.rs NtfsNonResidentAttributeValue::read", "src/attribute_value/non_resident.rs NtfsNonResidentAttributeValue::seek"]}
{"id": "C44", "title": "The data position of a resident value is the disk position of the next byte", "statement": "For a resident value data_position() is the absolute position in the filesystem of the byte that is read next.", "quantifier": "every file record, resident attribute and stream position", "why_tests_cant": "depends on value offset, attribute offset and record position, over all records", "anchors": ["src/attribute_value/resident.rs NtfsResidentAttributeValue::data_position", "src/attribute.rs NtfsAttribute::resident_value"]}
{"id": "C45", "title": "File information, volume information and volume name", "statement": "info() decodes the first $STANDARD_INFORMATION attribute of the record, volume_info() the first $VOLUME_INFORMATION attribute of file 3, volume_name() the first $VOLUME_NAME attribute of file 3; volume_name() is None exactly if file 3 has no such attribute, and an unreadable file 3 is an error.", "quantifier": "every file record / every volume and device schedule", "why_tests_cant": "depends on attribute order, residency and value lengths over all records", "anchors": ["src/file.rs NtfsFile::info", "src/ntfs.rs Ntfs::volume_info", "src/ntfs.rs Ntfs::volume_name"]}
{"id": "C46", "title": "Every read moves the position by the bytes it returns", "statement": "read on a value in any state returns at most as many bytes as the buffer holds, advances stream_position by exactly that number and never beyond len; a failing read moves the position by at most the remaining length; len never changes.", "quantifier": "every resident, non-resident or attribute-list value in every state (malformed mapping pairs and previous errors included), buffer size and device schedule", "why_tests_cant": "hostile mapping pairs, faults and histories are unbounded", "anchors": ["src/attribute_value/resident.rs NtfsResidentAttributeValue::read", "src/attribute_value/non_resident.rs NtfsNonResidentAttributeValue::read", "src/attribute_value/attribute_list_non_resident.rs NtfsAttributeListNonResidentAttributeValue::read"]}
{"id": "C47", "title": "Header accessors return the encoded fields", "statement": "For every file record, attribute, index entry, index root and index record that the library accepts, the accessors (sequence number, hard link count, sizes, flags, is_directory; attribute type, length, flags, instance, residency, name and value length, position; entry length, key, data, flags, file reference, subnode VCN, to_file; record and root sizes, VCN, has_subnodes) return the little-endian fields at the documented offsets, and flags only the documented bits.", "quantifier": "every accepted record, attribute and entry", "why_tests_cant": "all byte patterns in the headers, including undefined flag bits and lengths that do not fit", "anchors": ["src/file.rs NtfsFile", "src/attribute.rs NtfsAttribute", "src/index_entry.rs NtfsIndexEntry", "src/index_record.rs NtfsIndexRecord", "src/structured_values/index_root.rs NtfsIndexRoot"]}
{"id": "C48", "title": "read_exact fills the buffer for every conforming reader", "statement": "NtfsReadSeek::read_exact over any reader that conforms to the contract of read (delivers a nonempty piece of the next bytes, or is interrupted without having moved, or fails) returns exactly the next n bytes in order, whatever the pieces and interruptions are; it returns UnexpectedEof exactly if the content ends earlier, and otherwise only an error that read itself returned; it ends after at most one call per byte and interruption.", "quantifier": "every conforming reader, content, position, buffer size and schedule of pieces, interruptions and failures", "why_tests_cant": "schedules are unbounded", "anchors": ["src/traits.rs NtfsReadSeek::read_exact"]}
{"id": "C49", "title": "Iterating over the index records of an index allocation", "statement": "NtfsIndexAllocation::records returns the index records stored in the allocation, one every index_record_size bytes, each exactly once and in order, with their repaired bytes and their positions on the device, and then None; at a place where no valid index record is stored it returns an error, and does so again on every further call.", "quantifier": "every index allocation content, extent list, record size and faultless device (any short reads)", "why_tests_cant": "depends on all record contents and on how the allocation is split into extents", "anchors": ["src/structured_values/index_allocation.rs NtfsIndexRecords::next", "src/structured_values/index_allocation.rs NtfsIndexAllocation::records", "src/index_record.rs NtfsIndexRecord::new"]}
{"id": "C50", "title": "Iterating over the attributes of a file with an attribute list", "statement": "NtfsFile::attributes on a file with an attribute list returns the attributes of the file record itself (without the list) and, in the place of the list, every attribute that the list names in other file records, in the order of the list: with the file record and the offset it is stored at, a non-resident attribute that is split over several entries exactly once and with the whole value, an error in place of an entry that cannot be followed, and then None for ever.", "quantifier": "every volume, file record, attribute list (resident or not), record layout and faultless device (any short reads)", "why_tests_cant": "depends on the contents of all the file records that the list names and on the order of its entries", "anchors": ["src/attribute.rs NtfsAttributes::next", "src/attribute.rs NtfsAttributeItem::to_attribute", "src/structured_values/attribute_list.rs NtfsAttributeListEntry::to_file", "src/file.rs NtfsFile::attributes"]}
{"id": "C51", "title": "Lookup of attributes, streams and names in a file with an attribute list", "statement": "find_attribute, NtfsFile::data and NtfsFile::name on a file with an attribute list return the first attribute in the order of the iteration (C50) that has the type and name, the stream name (up to case), or the namespace and parent, wherever it is stored; they report that there is none only if there is none, and an error only if an attribute before the first hit is malformed or an entry cannot be followed.", "quantifier": "every volume, file record, attribute list, searched type, name, namespace and parent, and faultless device (any short reads)", "why_tests_cant": "depends on the contents of all the file records that the list names", "anchors": ["src/file.rs NtfsFile::data", "src/file.rs NtfsFile::name", "src/file.rs NtfsFile::find_attribute", "src/attribute.rs NtfsAttributes::next"]}
{"id": "C52", "title": "A whole session of the example program answers from the volume", "statement": "Opening a volume with the example program and giving it any list of commands has exactly the replies that the stored volume determines: dir shows every entry of the current directory once and in order with its name and whether it is a directory; cd enters the directory that has the name up to case (and shows its Win32 name in the prompt) or says that there is none or that it is a file; cd .. goes to the parent; get writes exactly the bytes of the named stream of the file with that name or number, or says that there is no such file, stream or number; attr, fileinfo and fsinfo show what the record and the boot sector say (C56, C57).", "quantifier": "every stored volume (boot sector, MFT layout, upper case table, records, attribute lists, directory trees, contents), every list of commands and every faultless device (any short reads)", "why_tests_cant": "spans the whole crate; depends on the contents of all records and on the whole history of commands", "anchors": ["examples/ntfs-shell/main.rs main", "examples/ntfs-shell/main.rs cd", "examples/ntfs-shell/main.rs dir", "examples/ntfs-shell/main.rs get", "examples/ntfs-shell/main.rs parse_file_arg", "examples/ntfs-shell/main.rs best_file_name"]}
{"id": "C53", "title": "The example program survives every history of commands", "statement": "No list of commands on a valid volume makes the example program panic or run for ever: every command ends with success or a message, and entering a directory followed by cd .. restores the prompt and the current directory.", "quantifier": "every stored volume, every directory name that it can contain, every list of commands and every faultless device", "why_tests_cant": "the failure needs a particular directory name and a particular sequence of commands", "anchors": ["examples/ntfs-shell/main.rs cd", "examples/ntfs-shell/main.rs CommandInfo"]}
{"id": "C54", "title": "File record numbers in commands", "statement": "An argument of the form /N is accepted exactly if N is a decimal number, or 0x and a hexadecimal number with digits in either case (a plus sign is allowed), of at most 2^64-1, and stands for that number; every other text is rejected with a message.", "quantifier": "every text", "why_tests_cant": "texts are unbounded", "anchors": ["examples/ntfs-shell/main.rs parse_file_arg"]}
{"id": "C55", "title": "Reading hostile volumes terminates", "statement": "Whatever the volume contains and whatever the device does, opening a volume, reading the upper case table, reading a file by its number, every step of the iteration over its attributes (attribute lists included), searching an attribute, a data stream or a name, every read and seek on any attribute value (also one that is split over many records) and reading structured values end; the iteration returns finitely many attributes before it ends or reports an error; and a session of the example program ends whose commands do not look up names. (Directories are C29.)", "quantifier": "every image (boot sector, records, lists and runs of any content), every device schedule of short reads, interruptions and faults, every history of operations", "why_tests_cant": "hostile contents and schedules are unbounded, and a test cannot observe that something does not end", "anchors": ["src/attribute.rs NtfsAttributes::next", "src/structured_values/attribute_list.rs NtfsAttributeListEntries::next", "src/attribute_value/attribute_list_non_resident.rs NtfsAttributeListNonResidentAttributeValue", "src/file.rs NtfsFile::find_attribute", "src/ntfs.rs Ntfs::file", "src/ntfs.rs Ntfs::read_upcase_table", "examples/ntfs-shell/main.rs get"]}
{"id": "C56", "title": "The example program shows every attribute of a file", "statement": "attr shows one line for every attribute in the record of a file, in the order of the record, with its instance, type, whether it is resident, the number and place of its record, the length of its value and its name; behind an attribute list also those that the list names in other records, each once per entry; attr_runs shows in addition all extents of each non-resident attribute with their index, place and size. Nothing else is shown.", "quantifier": "every file record with whole attributes, every attribute list, every faultless device (any short reads)", "why_tests_cant": "depends on the contents of all records that a list names; the number of attributes, entries and extents is unbounded", "anchors": ["examples/ntfs-shell/main.rs attr", "examples/ntfs-shell/main.rs attr_print_attribute", "src/file.rs NtfsFile::attributes_raw", "src/attribute_value/non_resident.rs NtfsNonResidentAttributeValue::data_runs"]}
{"id": "C57", "title": "The example program tells what file records and the volume say", "statement": "fileinfo shows the sizes, place, link count, directory flag, number and sequence number of the record, then for every $STANDARD_INFORMATION, $FILE_NAME and $DATA attribute of the file, in order and also behind an attribute list, its times and flags, its name, namespace and parent, or its name and size. fsinfo shows the sector, cluster and record sizes, the place of the MFT, the serial number and size of the boot sector, the version and the name of the volume.", "quantifier": "every file record whose attributes of these types are whole, every attribute list, every volume, every faultless device (any short reads)", "why_tests_cant": "the records and values are unbounded in number and content", "anchors": ["examples/ntfs-shell/main.rs fileinfo", "examples/ntfs-shell/main.rs fileinfo_std", "examples/ntfs-shell/main.rs fileinfo_filename", "examples/ntfs-shell/main.rs fileinfo_data", "examples/ntfs-shell/main.rs fsinfo"]}
{"id": "C58", "title": "Input lines of the example program", "statement": "Every input line is understood as one command: the word before the first space, and as argument the rest without white space around it; white space around the line does not count; a blank line does nothing; any other first word than those of the commands (case counts) is said to be unknown; the program ends at exit, quit or the end of the input and ignores what follows.", "quantifier": "every text and every list of lines", "why_tests_cant": "texts are unbounded", "anchors": ["examples/ntfs-shell/main.rs main"]}
{"id": "C59", "title": "A session of input lines answers from the volume", "statement": "Opening a volume with the example program and typing any lines has exactly the replies and prompts that the stored volume determines for the commands that the lines stand for.", "quantifier": "every stored volume, every list of input lines and every faultless device (any short reads)", "why_tests_cant": "spans the whole crate; depends on the contents of all records and on the whole history of input lines", "anchors": ["examples/ntfs-shell/main.rs main"]}
{"id": "C60", "title": "Device errors are reported, never turned into wrong data", "statement": "On a device some of whose reads and seeks fail, every call of the library (opening a volume or a file, iterating over and searching attributes, reading and seeking in values, loading the upper case table, iterating over and searching directories, volume information) either has exactly the result it has on the same device without these failures, or returns the device's error. In the first case no failure has occurred during the call, in the second case exactly one.", "quantifier": "every image (also corrupt ones), every schedule of short reads and of failing reads and seeks (except Interrupted), every state of every value and iterator, every argument", "why_tests_cant": "a test injects failures at a few points; a wrong result needs a failure at one particular point of one particular operation", "anchors": ["src/attribute_value/non_resident.rs read, seek", "src/attribute.rs NtfsAttributes::next", "src/index.rs next, find", "src/ntfs.rs file", "src/structured_values/attribute_list.rs next", "src/upcase_table.rs read"]}
{"id": "C61", "title": "The example program survives device errors", "statement": "During a session on a stored volume whose device fails now and then, each failure harms at most one command: that command shows the device's error, has printed and written a beginning of what it should have, and leaves the current directory as it is; all other commands have the replies and prompts that the volume determines. The exception is fsinfo, which shows a volume name that could not be read as missing.", "quantifier": "every stored volume, every list of commands, every schedule of short reads and of failing reads and seeks (except Interrupted)", "why_tests_cant": "the harm depends on the point of the failure relative to the whole history of commands", "anchors": ["examples/ntfs-shell/main.rs main, cd, dir, get, attr, fileinfo, fsinfo"]}
{"id": "C63", "title": "The example program does not overwrite or misname files of the host", "statement": "Whatever is on the device, a session leaves every existing file of the host as it is, and creates only files named FILE or FILE_STREAM for its commands get FILE and get FILE:STREAM. On a stored volume each created file has exactly the bytes of the stream; if the device fails now and then, the bytes are a beginning of those of the stream. A get whose output file exists or may not be created is refused and has no effect.", "quantifier": "every device, every set of existing files, every list of commands; for the contents every stored volume and every schedule of short reads and failures (except Interrupted)", "why_tests_cant": "depends on the whole history of commands, the files present and the point of a device failure", "anchors": ["examples/ntfs-shell/main.rs get, main"]}
{"id": "C62", "title": "Error messages are true", "statement": "When the library rejects a boot sector, record, attribute, data run, index node, attribute list entry, VCN or structured value, the error tells the truth about the bytes: the defect it names is present, the values it quotes are those in the bytes, expected and actual numbers are not confused, and the position is the absolute position of the object it names.", "quantifier": "every byte sequence of every length (within u16 or u64 limits) at every position, for each of the operations: opening, reading file and index records, iterating over and looking up attributes and their names and values, iterating over data runs, index roots, index entries with their keys, data and subnodes, attribute lists, index records by VCN, and the structured values", "why_tests_cant": "every malformed input is a different case, and tests of errors usually check only that there is one; wrong positions or exchanged numbers are not noticed", "anchors": ["src/error.rs NtfsError", "src/boot_sector.rs", "src/record.rs fixup", "src/file.rs validate_sizes, find_resident_attribute", "src/index_record.rs validate_sizes", "src/attribute.rs validate_attribute_length, validate_name_sizes, validate_resident_value_sizes, non_resident_value_data_and_position", "src/attribute_value/non_resident.rs NtfsDataRuns", "src/index_entry.rs", "src/structured_values/*.rs new"]}
{"id": "C64", "title": "Results depend on the bytes of the volume only", "statement": "Every call gives the same result, value state and iterator state on any two devices that hold the same bytes and do not fail, however the devices split their reads and wherever their cursors stand. This includes the number of bytes that a read of a value returns, errors on malformed volumes, sequences of reads and seeks, and sessions of the example program.", "quantifier": "every image of at most 2^64 bytes (also corrupt ones), every two schedules of short reads, every two cursor positions, every state of every value and iterator, every argument", "why_tests_cant": "a dependency on the cursor or on how a read is split shows only with a device that splits a read at one particular place, in one particular operation", "anchors": ["src/attribute_value/non_resident.rs read, seek, do_seek", "src/attribute_value/attribute_list_non_resident.rs read", "src/attribute_value/mod.rs NtfsAttributeValue", "src/attribute.rs NtfsAttributes::next", "src/index.rs next, find", "src/ntfs.rs new, file"]}
{"id": "C65", "title": "Panics only on the listed malformed shapes", "statement": "No call of the library panics, whatever else a volume contains and whatever the device does, unless the volume has one of a few listed malformed shapes: file records of more than 65535 bytes, an attribute whose header is cut off by the end of its record, a data run that reaches beyond byte 2^64, an index root whose entries end before they start, or index nodes with entries too short for their flags or with sizes near 2^32. Sessions of the example program do not panic either, unless in addition a directory lists an entry without a key or a file name contains a backslash.", "quantifier": "every byte sequence as a volume, every device schedule (short reads, errors of every kind at every call), every number of steps, every argument; all calls: opening, files, attributes, values with any history of reads and seeks, structured values, attribute lists, searches, directories, and all commands of the example program", "why_tests_cant": "crafted volumes are unlimited in number; fuzzing finds panics but cannot show that there are no others", "anchors": ["src/ntfs.rs", "src/file.rs", "src/attribute.rs", "src/attribute_value/*.rs", "src/index.rs", "src/index_entry.rs", "src/index_record.rs", "src/structured_values/*.rs", "examples/ntfs-shell/main.rs"]}
{"id": "C66", "title": "Attached values work as readers of the standard library", "statement": "A value attached to its device implements the standard traits for reading and seeking: a program that uses only these cannot tell it from the same bytes in memory, whatever it makes its calls depend on. read_to_end gives all bytes from the position to the end; if the device fails it gives a beginning of them and the device's error, never a silent end; read_exact fills the buffer or reports the end; on streams of any volume read_to_end ends. Errors of the device keep their kind, no other error is taken for an interruption, and the value goes on from where it was after it is detached.", "quantifier": "every attribute content, also continued over several records, every history before it is attached, every program of any number of calls, every amount that the standard library may ask for, every schedule of short reads and failures (except Interrupted)", "why_tests_cant": "a program's calls depend on the answers it gets, so the histories are a tree of unlimited size; which sizes read_to_end asks for changes between versions of the standard library", "anchors": ["src/attribute_value/mod.rs NtfsAttributeValueAttached, attach, detach", "src/attribute_value/non_resident.rs NtfsNonResidentAttributeValueAttached", "src/error.rs From<NtfsError> for io::Error"]}
{"id": "C67", "title": "Listing goes on behind what cannot be read", "statement": "A caller that goes on iterating over a directory after an error gets the remaining entries in order, none twice and none that are not there, and then the end: it misses only entries of nodes that could not be read, be it that calls to the device failed or that nodes are damaged, and there are at most as many errors as unreadable nodes.", "quantifier": "every directory with index trees of any shape, every set of damaged nodes, every schedule of short reads and failing calls (except Interrupted), every number of steps", "why_tests_cant": "which entries are missing depends on where in the tree the failing node is and on the state of the iterator at that point", "anchors": ["src/index.rs NtfsIndexEntries::next", "src/index_record.rs", "src/structured_values/index_allocation.rs record_from_vcn"]}
{"id": "C68", "title": "Damaged extent lists do not give wrong data", "statement": "A value whose list of extents is damaged from some point on gives the bytes of the extents before the damage correctly, under any history of reads and seeks: a read that needs more than these fails instead of returning less or other bytes, a seek to a place inside of them succeeds, and no failed operation makes a later successful one return wrong bytes.", "quantifier": "every valid list of extents followed by any bytes that are not a mapping pair, every value size, every history of reads and seeks, every schedule of short reads", "why_tests_cant": "the histories are unlimited, and the defect shows only in operations that follow a failed one", "anchors": ["src/attribute_value/non_resident.rs NtfsDataRuns::next, next_data_run, read, seek, do_seek, optimize_seek, StreamState"]}
{"id": "C69", "title": "Bytes that were never written read as zeros", "statement": "Of a value whose initialised size is smaller than its length, the bytes behind the initialised size read as zeros, whatever the clusters allocated for them hold; all others read as stored.", "quantifier": "every non-resident attribute with valid extents, every initialised size, every content of the clusters, every history of reads and seeks, every schedule of short reads", "why_tests_cant": "the difference shows only if the clusters hold something else than zeros behind the initialised size, which test images usually do not", "anchors": ["src/attribute.rs NtfsNonResidentAttributeHeader, value", "src/attribute_value/non_resident.rs read"]}
{"id": "C70", "title": "File references lead to the file they were made for", "statement": "Opening the file of an index entry gives the file that the entry was made for: the record with the number in its reference, if that record still carries the sequence number of the reference, and an error if the record has been reused for another file. The same holds for the references in attribute lists.", "quantifier": "every volume, every index entry and attribute list entry, every number and sequence number", "why_tests_cant": "references to reused records occur on inconsistent volumes only, and there in any combination", "anchors": ["src/file_reference.rs to_file", "src/index_entry.rs to_file", "src/structured_values/attribute_list.rs NtfsAttributeListEntry::to_file", "src/ntfs.rs file"]}
{"id": "C71", "title": "Only attributes in the used part of a record are listed", "statement": "Iterating over the attributes of a file returns the attributes in the used part of its record and nothing that an earlier use has left behind it.", "quantifier": "every file record, every used size", "why_tests_cant": "what is left over in the unused part depends on the history of the record", "anchors": ["src/attribute.rs NtfsAttributesRaw::next", "src/file.rs data_size"]}
{"id": "C72", "title": "After an error, a value goes on where it says it is", "statement": "Reading or seeking in the value of an attribute may fail, because the file system reader reports an error. When the file system reader works again, the value goes on at the position it reports: a read returns the bytes of the content from that position on, not the end of the value and not bytes from elsewhere, and seeks lead to the positions they name. An error is never turned into a shorter value.", "quantifier": "All volumes, all values (resident, non-resident, spread over several file records), all sequences of reads and seeks, and all errors of the file system reader in any of these calls.", "why_tests_cant": "A value has hidden state that is partly updated when an error occurs. Tests would have to let every access to the device fail once, in every history, and compare what is read afterwards with the whole content.", "anchors": ["src/attribute_value/non_resident.rs: NtfsNonResidentAttributeValue::read, seek", "src/attribute_value/attribute_list_non_resident.rs: NtfsAttributeListNonResidentAttributeValue::next_attribute, rewind, read, seek", "src/attribute_value/mod.rs: NtfsAttributeValue"]}
{"id": "C73", "title": "Damage elsewhere in an index does not change the answer of a lookup", "statement": "Looking up a name (or any key) in a directory index gives the right answer as long as the index nodes on one way down from the root, one per level, are as they were when the index was in order. What has happened to all other nodes (torn writes, bad sectors, other content) does not matter. If nodes on that way are damaged or unreadable, the answer is right or an error: never \"there is no such entry\" for one that exists, never a wrong entry, never a panic.", "quantifier": "All directory indexes (of directories with or without an attribute list), all names and consistent comparisons, all changes to index nodes off the way, all damage to nodes on it, all devices (with faults, but no interrupted calls).", "why_tests_cant": "The damage and the shape of the tree are unbounded: tests would have to damage every set of nodes in every index and look up every name.", "anchors": ["src/index.rs: NtfsIndexFinder::find, NtfsIndexEntries::next", "src/attribute.rs: NtfsAttributes::next", "src/file.rs: NtfsFile::find_attribute, data", "src/indexes/file_name.rs: NtfsFileNameIndex::find", "src/structured_values/index_allocation.rs: NtfsIndexAllocation::record_from_vcn"]}
{"id": "C74", "title": "Directories whose attributes are spread over several file records work like any other", "statement": "A directory that has become so large or so fragmented that its attributes no longer fit one file record (its $INDEX_ROOT and $INDEX_ALLOCATION are in other records, the latter possibly in several parts) opens, lists exactly the entries of its index, each once and in order, and finds every name regardless of case, and no others.", "quantifier": "All volumes, all files with an attribute list (resident or not) whose index attributes are shown by the flattened view, all index trees over the joined parts, all names, all devices without faults (with any short reads).", "why_tests_cant": "The number of parts, extents, list entries and index nodes is unbounded, and index records can lie anywhere relative to the borders between parts and extents.", "anchors": ["src/file.rs: NtfsFile::directory_index, find_attribute", "src/index.rs: NtfsIndex, NtfsIndexEntries::next, NtfsIndexFinder::find", "src/attribute.rs: NtfsAttributes::next", "src/attribute_value/attribute_list_non_resident.rs"]}
{"id": "C75", "title": "The example program reads the bytes of the partition it was given", "statement": "The example program reads through a buffer on top of a reader that only touches whole sectors. Code that seeks before each read, as the library does, gets through both of them exactly the bytes that are at that place of the partition, or an error; never other bytes, never a panic, whatever the device does. Without device errors there are no errors, so that all the volume can be read.", "quantifier": "All programs that access the reader by seeking and then reading once, each step depending on the answers before; all sector and buffer sizes, all partition contents and lengths, all devices (with short reads and faults).", "why_tests_cant": "The state of the two readers after one access (buffer, position, real position) meets every other access, position and length: unbounded histories.", "anchors": ["examples/ntfs-shell/main.rs: main", "examples/ntfs-shell/sector_reader.rs: SectorReader::read, seek", "src/ntfs.rs: Ntfs::new", "src/file.rs: NtfsFile::new", "src/attribute_value/non_resident.rs: NtfsDataRun::read"]}
{"id": "C76", "title": "A volume cannot make the library allocate large buffers", "statement": "Whatever a boot sector and the index roots say, the buffer for a file record or an index record has at least 512 bytes (so that its header fits) and at most 4096 bytes (the largest size that the library lets a boot sector give as an exponent, in order not to allocate too large buffers).", "quantifier": "All contents of the boot sector and of index roots, all devices (with faults).", "why_tests_cant": "The sizes come from the volume: the product of three fields, or a 32 bit field. Tests only try some.", "anchors": ["src/boot_sector.rs: BiosParameterBlock::file_record_size, record_size, cluster_size", "src/file.rs: NtfsFile::new", "src/index_record.rs: NtfsIndexRecord::new", "src/structured_values/index_root.rs: NtfsIndexRoot::index_record_size"]}
{"id": "C77", "title": "An open value shows what the volume holds at the moment of the read", "statement": "If somebody writes to the clusters of a file while a value of it is open, every read of the value returns what the clusters hold at the time of that read; nothing that was read before is served again, and positions are not affected. A resident value, which belongs to the record that has been read, keeps its bytes whatever happens to the volume. This also holds for values in several records, which are read again when a seek goes back, as long as the records still list the same clusters.", "quantifier": "All values, in one record or in several; all histories of reads and seeks, all sequences of contents of the volume, one for each operation of the history, with short reads and arbitrary cursor positions of the device in between.", "why_tests_cant": "Unbounded histories with arbitrary changes of the contents between any two operations.", "anchors": ["src/attribute_value/non_resident.rs: NtfsNonResidentAttributeValue::read, seek", "src/attribute_value/resident.rs: NtfsResidentAttributeValue::read", "src/attribute.rs: NtfsAttribute::value"]}
{"id": "C78", "title": "What an operation costs: the number of device accesses", "statement": "Opening a volume positions the reader once; opening any file by its number or by a reference, the root directory, the volume information or the volume name at most twice, wherever the file is and however fragmented the MFT. Seeking in the value of an attribute, reading a resident value, and iterating over or searching the attributes of a file without attribute list do not touch the device. A read of a non-resident value positions the reader at most once for each extent on the device that has some of the bytes asked for (holes, and the extents before and behind, cost nothing), and once more for each read of the device that comes short. Looking up a name in a directory reads at most one index record on each level of the index, however many entries and records there are, and pays for each record as many accesses as the record lies in extents; listing the directory reads each index record once for each reference to it, however often the iterator is called.", "quantifier": "All volumes, file numbers, directories with an index without cycles, values with valid extents, histories of reads and seeks before, lengths, and all devices (with short reads and faults).", "why_tests_cant": "The number of extents, the position in the history and the behaviour of the device are unbounded; a test only counts the accesses of its own cases.", "anchors": ["src/ntfs.rs: Ntfs::new, file, root_directory, volume_info, volume_name", "src/file.rs: NtfsFile::new", "src/attribute_value/non_resident.rs: NtfsNonResidentAttributeValue::read, seek, NtfsDataRun::read", "src/attribute_value/non_resident.rs: StreamState::read_data_run", "src/attribute_value/mod.rs: NtfsAttributeValue::seek", "src/index_entry.rs: NtfsIndexEntry::to_file", "src/structured_values/attribute_list.rs: NtfsAttributeListEntry::to_file", "src/index.rs: NtfsIndexFinder::find, NtfsIndexEntries::next", "src/attribute.rs: NtfsAttributes::next", "src/file.rs: NtfsFile::find_attribute, data", "src/structured_values/index_allocation.rs: record_from_vcn", "src/indexes/file_name.rs: NtfsFileNameIndex::find"]}
