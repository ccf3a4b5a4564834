{"id": "C01", "title": "File reference encode/decode are inverse", "statement": "Decoding a file reference number built from a record number below 2^48 and a sequence number below 2^16 gives back that pair, and re-encoding the decoded pair of any 64-bit reference gives back the reference; distinct pairs never collide.", "quantifier": "every record number < 2^48, sequence number < 2^16, every 64-bit reference", "why_tests_cant": "2^64 references cannot be enumerated", "anchors": ["dfir_ntfs/MFT.py:DecodeFileRecordSegmentReference", "dfir_ntfs/MFT.py:EncodeFileRecordSegmentReference"]}
{"id": "C02", "title": "Mapping pairs are decoded exactly", "statement": "Decoding a mapping-pairs byte string returns a run list if and only if the bytes are (up to the terminator) a well-formed encoding of exactly that list of (offset, count) runs; every other byte string raises MappingPairsException, and no other exception; in particular encoding any run list and decoding it returns the list.", "quantifier": "every byte string, every run list with positive 64-bit counts and signed 64-bit deltas", "why_tests_cant": "unbounded number of runs and field widths; correctness must hold for every malformed tail as well", "anchors": ["dfir_ntfs/MFT.py:DecodeMappingPairs"]}
{"id": "C03", "title": "Decoded run offsets are never negative", "statement": "No run list returned by the mapping pairs decoder has a run placed before the start of the volume.", "quantifier": "every byte string accepted by the decoder", "why_tests_cant": "requires reasoning about the cumulative sum of arbitrary signed deltas", "anchors": ["dfir_ntfs/MFT.py:DecodeMappingPairs"]}
{"id": "C04", "title": "Torn file records are rejected and intact ones restored", "statement": "Opening a file record segment with update sequence processing either raises, or produces the on-disk bytes with every protected sector tail replaced by the value saved in the update sequence array (for every placement of the array that does not itself cover a sector tail); whenever a sector that starts before the first free byte carries a tail different from the update sequence number, opening raises; protecting any valid record with any update sequence number and opening it returns the original record.", "quantifier": "every 1024/4096-byte record, every update sequence number and placement of the array", "why_tests_cant": "torn-write patterns and array placements form an unbounded space", "anchors": ["dfir_ntfs/MFT.py:FileRecordSegment.__init__", "dfir_ntfs/MFT.py:FileRecordSegment.apply_update_sequence_array", "dfir_ntfs/MFT.py:FileRecordSegment.validate_update_sequence_array"]}
{"id": "C05", "title": "Accepted file records have in-range headers", "statement": "If a file record segment is accepted then its signature is a known one, its declared size is a supported size not above the buffer, its first-free offset lies inside the record and its first-attribute offset lies inside the record after the update sequence array; a record violating any of these is rejected with a file-record exception and never another exception.", "quantifier": "every byte string", "why_tests_cant": "the set of malformed headers is unbounded", "anchors": ["dfir_ntfs/MFT.py:FileRecordSegment.__init__", "dfir_ntfs/MFT.py:FileRecordSegment.validate_header"]}
{"id": "C06", "title": "Attribute enumeration stays in the record and terminates", "statement": "Enumerating the attributes of an accepted file record segment terminates, and every attribute yielded is described by bytes inside the record: resident values have exactly the declared length and lie within the attribute record, names have the declared length; records are visited in increasing, non-overlapping order; the enumeration stops at the end marker or raises an attribute exception.", "quantifier": "every accepted record content", "why_tests_cant": "the chain of record lengths is attacker-controlled, any length", "anchors": ["dfir_ntfs/MFT.py:FileRecordSegment.attributes"]}
{"id": "C07", "title": "Data runs of a fragmented attribute are complete and contiguous", "statement": "When a file record returns data runs and a size for an attribute split across several attribute records, the runs are the decoded mapping pairs of the matching records in increasing VCN order, with no VCN gap or overlap, starting at VCN 0 (each record begins at the VCN where the runs before it end); a gap, overlap or missing first record never yields a result but an error; the size returned is that of the first matching record starting at VCN 0.", "quantifier": "every file record with any number of attribute records in any order", "why_tests_cant": "number and order of extents are unbounded", "anchors": ["dfir_ntfs/MFT.py:FileRecord.get_data_runs"]}
{"id": "C08", "title": "Merging attributes loses and invents nothing", "statement": "Enumerating attributes in merge mode yields each resident attribute unchanged and in order, then exactly one nonresident attribute for each nonresident record that starts at VCN 0, carrying its runs followed by the runs of the records of the same type and name with a nonzero first VCN, in increasing VCN order, and this agrees with the data runs returned for that stream (records without a VCN-0 partner are dropped, recorded as a finding).", "quantifier": "every list of attributes over base and child segments", "why_tests_cant": "unbounded number of parts and orders", "anchors": ["dfir_ntfs/MFT.py:FileRecord.attributes"]}
{"id": "C09", "title": "Fragmented file reads agree with the virtual content", "statement": "For any sequence of seek, tell and read calls on a fragmented file, each read returns the bytes of the virtual content defined by the run list (run clusters from the volume, zeros for sparse runs) at the current position and advances the position by the number of bytes returned; reading without a size from the start returns exactly the first file-size bytes.", "quantifier": "every run list, cluster size, volume content and every history of seek/read calls", "why_tests_cant": "histories and run lists are unbounded", "anchors": ["dfir_ntfs/MFT.py:FragmentedFile.read", "dfir_ntfs/MFT.py:FragmentedFile.seek", "dfir_ntfs/MFT.py:FragmentedFile.tell", "dfir_ntfs/MFT.py:FragmentedFile.read_virtual_cluster"]}
{"id": "C10", "title": "Fragmented file reads never pass the end of file", "statement": "A sized read on a fragmented file never returns more than the bytes left until the end of the file.", "quantifier": "every run list, size and position", "why_tests_cant": "depends on every combination of size, position and cluster size", "anchors": ["dfir_ntfs/MFT.py:FragmentedFile.read"]}
{"id": "C11", "title": "File record enumeration is sound and complete", "statement": "Iterating over file records yields, in increasing position order, one record per slot of the table holding a valid base segment, and nothing else; each is given exactly the valid child segments (in increasing position order) whose base reference is the number and sequence of that base segment.", "quantifier": "every $MFT content of any length", "why_tests_cant": "number of segments and the child graph are unbounded", "anchors": ["dfir_ntfs/MFT.py:MasterFileTableParser.file_records", "dfir_ntfs/MFT.py:MasterFileTableParser.execute_first_pass"]}
{"id": "C12", "title": "Lookup by number honours the sequence number", "statement": "Looking up a file record by number and sequence number returns a record only if the segment at that slot is valid and its sequence number matches (for a deallocated segment, matches the number it had before deallocation); a mismatch, an invalid segment or an out-of-range number raises a file-table exception.", "quantifier": "every table content, number and sequence number", "why_tests_cant": "all 2^16 sequence numbers times all records and states", "anchors": ["dfir_ntfs/MFT.py:MasterFileTableParser.get_file_record_by_number", "dfir_ntfs/MFT.py:MasterFileTableParser.get_file_record_segment_by_number"]}
{"id": "C13", "title": "Path building terminates on any parent graph", "statement": "Building full paths of a file record terminates for every table, including cyclic parent references, visits each parent at most once, and every path returned is the join of names along the parent chain that ends either at the root directory (leading separator) or with the orphan marker.", "quantifier": "every table content (arbitrary parent graph)", "why_tests_cant": "parent graphs of any size and with any cycles", "anchors": ["dfir_ntfs/MFT.py:MasterFileTableParser.build_full_paths"]}
{"id": "C14", "title": "Lookup by path is sound", "statement": "A record returned for a path is in use (and a directory if the path ends with a separator), is the one in the lowest slot, and there is a chain of parent references with matching sequence numbers up to the root whose names match the path components; if none is returned no record fits. (That the parents are in-use directories is refuted.)", "quantifier": "every table content and path", "why_tests_cant": "unbounded tables, path depths and name sets", "anchors": ["dfir_ntfs/MFT.py:MasterFileTableParser.get_file_record_by_path"]}
{"id": "C15", "title": "Every live path can be looked up", "statement": "If an in-use record has a name whose parent chain reaches the root through in-use directories then looking up that path returns a record.", "quantifier": "every table and path", "why_tests_cant": "needs every combination of hard links and directory orders", "anchors": ["dfir_ntfs/MFT.py:MasterFileTableParser.get_file_record_by_path"]}
{"id": "C16", "title": "NTFS timestamps keep their order and are within the float error", "statement": "Decoding FILETIME values is monotone: an earlier FILETIME never decodes to a later time; the decoded microsecond count differs from the exact quotient by at most half a unit in the last place of a double plus half a microsecond; a value past year 9999 gives no timestamp (or raises when asked to).", "quantifier": "every 64-bit FILETIME value", "why_tests_cant": "2^64 inputs; rounding behaviour changes with magnitude", "anchors": ["dfir_ntfs/Attributes.py:DecodeFiletime"]}
{"id": "C17", "title": "Decoded timestamps have full microsecond precision", "statement": "For every FILETIME below year 9999 the decoded time is the exact FILETIME rounded to a microsecond.", "quantifier": "every 64-bit FILETIME value", "why_tests_cant": "2^64 inputs", "anchors": ["dfir_ntfs/Attributes.py:DecodeFiletime"]}
{"id": "C18", "title": "Partial standard information reports only supplied bytes", "statement": "A field of a partially recovered $STANDARD_INFORMATION value is reported if and only if all eight of its bytes are inside the supplied fragment, and its value is the one of those bytes; a fragment that does not cover a field gives None.", "quantifier": "every fragment, every offset", "why_tests_cant": "arbitrary fragment lengths and offsets", "anchors": ["dfir_ntfs/Attributes.py:StandardInformationPartial"]}
{"id": "C19", "title": "Attribute list entries are decoded completely", "statement": "Serialising any list of attribute list entries and parsing it back yields the same entries in order; on arbitrary bytes the parser terminates and every entry comes from inside the value.", "quantifier": "every list of entries; every byte string", "why_tests_cant": "any number of entries and any alignment padding", "anchors": ["dfir_ntfs/Attributes.py:AttributeList.entries"]}
{"id": "C20", "title": "Index sectors are restored or rejected", "statement": "Unprotecting an index buffer returns nothing unless the length, signature, array placement and every sector tail are right; otherwise it returns the bytes with every tail restored; protect followed by unprotect is the identity.", "quantifier": "every byte string; every buffer of whole sectors", "why_tests_cant": "unbounded sizes and tear patterns", "anchors": ["dfir_ntfs/Attributes.py:VerifyAndUnprotectIndexSectors"]}
{"id": "C21", "title": "Index entry iteration terminates inside the buffer", "statement": "Iterating the entries of an index buffer or index root terminates and visits strictly increasing, in-buffer positions, never past the first free byte.", "quantifier": "every buffer", "why_tests_cant": "attacker-controlled entry lengths", "anchors": ["dfir_ntfs/Attributes.py:IndexBuffer.index_entries", "dfir_ntfs/Attributes.py:IndexRoot.index_entries"]}
{"id": "C22", "title": "Extended attributes round trip", "statement": "Serialising any list of extended attributes and parsing them gives back names, flags and values; on arbitrary bytes parsing terminates and yields only data inside the value.", "quantifier": "every list of EAs; every byte string", "why_tests_cant": "any number and sizes of EAs", "anchors": ["dfir_ntfs/Attributes.py:EA.data_parsed", "dfir_ntfs/WSL.py:LXXATTR.extended_attributes"]}
{"id": "C23", "title": "NTFS boot sector geometry is sane", "statement": "For every boot sector accepted, sector size is a positive multiple of 512 that fits the field, cluster size is a positive power-of-two multiple as encoded, and the file record / index record sizes equal the documented signed-byte decoding; a zero $MFT cluster raises.", "quantifier": "every 512-byte sector", "why_tests_cant": "2^4096 sectors", "anchors": ["dfir_ntfs/BootSector.py:BootSector"]}
{"id": "C24", "title": "USN records are all recovered", "statement": "For a journal made of valid USN records at 8-byte aligned offsets separated by any amount of zero padding, iteration yields exactly those records in order.", "quantifier": "every list of valid records (<= 8192 bytes), every padding between them", "why_tests_cant": "any number of records and all alignments against the 8192-byte read window", "anchors": ["dfir_ntfs/USN.py:ChangeJournalParser.usn_records", "dfir_ntfs/USN.py:GetUsnRecord"]}
{"id": "C25", "title": "USN iteration terminates and is sound", "statement": "On any journal bytes iteration terminates, and each record yielded is a valid record at an 8-byte aligned offset; records yielded never overlap and offsets increase.", "quantifier": "every byte string", "why_tests_cant": "arbitrary garbage between records", "anchors": ["dfir_ntfs/USN.py:ChangeJournalParser.usn_records"]}
{"id": "C26", "title": "USN reason and source codes lose no bit", "statement": "The textual form of a reason (source) value lists exactly the known flags set in it, plus the hexadecimal value of the remaining bits if nonzero; two different values never get the same list of names and remainder.", "quantifier": "every 32-bit value", "why_tests_cant": "2^32 values", "anchors": ["dfir_ntfs/USN.py:ResolveReasonCodes", "dfir_ntfs/USN.py:ResolveSourceCodes"]}
{"id": "C27", "title": "LSN and file offset conversions are inverse", "statement": "For every sequence-number width accepted by the restart area, converting an LSN to page/offset/sequence number and back is the identity on 64-bit LSNs, and converting an 8-byte aligned file offset within the addressable range and a sequence number to an LSN and back is the identity.", "quantifier": "every LSN, every width 3..63, every offset", "why_tests_cant": "2^64 LSNs times 61 widths", "anchors": ["dfir_ntfs/LogFile.py:LogFileParser.lsn_to_offset", "dfir_ntfs/LogFile.py:LogFileParser.offset_to_lsn", "dfir_ntfs/LogFile.py:LogFileParser.lsn_to_seqnum"]}
{"id": "C28", "title": "Log pages with torn writes are rejected", "statement": "Unprotecting a log page succeeds only if every sector tail equals the update sequence number, and then returns the bytes with each tail restored; protect followed by unprotect is the identity.", "quantifier": "every byte string of whole sectors", "why_tests_cant": "unbounded tear patterns", "anchors": ["dfir_ntfs/LogFile.py:UnprotectSectors"]}
{"id": "C29", "title": "Log records are reported in ascending LSN order without duplicates", "statement": "After LSN collection, the list of LSNs used for parsing is strictly increasing and every LSN in it addresses a readable page holding a record header with that very LSN, so reading its client data never hits a missing page.", "quantifier": "every $LogFile content whose size is addressable with the declared sequence-number width", "why_tests_cant": "the set of seeds and walk histories is unbounded", "anchors": ["dfir_ntfs/LogFile.py:LogFileParser.collect_lsns", "dfir_ntfs/LogFile.py:LogFileParser.sort_lsns"]}
{"id": "C30", "title": "Client data reassembly terminates with the right length", "statement": "Reading the client data of a collected LSN terminates and returns the declared number of bytes, or fewer only if a following page is unreadable; the bytes are those of the record data area followed by the data areas of the following pages in circular order.", "quantifier": "every $LogFile content and collected LSN", "why_tests_cant": "multi-page records of any length", "anchors": ["dfir_ntfs/LogFile.py:LogFileParser.get_client_data"]}
{"id": "C31", "title": "Log walks continue across the wrap-around", "statement": "Following records forward from an LSN continues through the end-of-file wrap to the records written after it.", "quantifier": "every $LogFile content", "why_tests_cant": "depends on where in the walk the wrap occurs", "anchors": ["dfir_ntfs/LogFile.py:LogFileParser.collect_lsns"]}
{"id": "C32", "title": "The examined log file is never written", "statement": "Parsing with recovery of tail and fast pages changes only an in-memory copy: the file passed by the caller has the same bytes after any prefix of the iteration, including one ended by an exception, and after a completed iteration the parser reads the original again.", "quantifier": "every $LogFile content and every point at which the consumer stops", "why_tests_cant": "every interruption point", "anchors": ["dfir_ntfs/LogFile.py:LogFileParser.prepare_for_writes", "dfir_ntfs/LogFile.py:LogFileParser.discard_changes", "dfir_ntfs/LogFile.py:LogFileParser.apply_tail_page", "dfir_ntfs/LogFile.py:LogFileParser.apply_fast_pages"]}
{"id": "C33", "title": "FAT chains terminate and are duplicate free", "statement": "Following a FAT chain from any cluster terminates for every table (including loops); the result has no repeated cluster, starts at the requested cluster, each element is the successor of the previous one in the table and lies in the valid range; it ends at an end-of-chain, bad or free marker.", "quantifier": "every FAT content of each width, every start cluster", "why_tests_cant": "loops of any length", "anchors": ["dfir_ntfs/addons/FAT.py:FAT.chain", "dfir_ntfs/addons/FAT.py:FAT.get_element", "dfir_ntfs/addons/exFAT.py:FAT.chain"]}
{"id": "C34", "title": "FAT entries are decoded at the right bits", "statement": "Writing any sequence of entry values as a FAT12, FAT16 or FAT32 table and reading entry n back returns value n (28 bits for FAT32); out-of-range clusters raise. A cluster counts as allocated exactly if it has an entry and this is not zero.", "quantifier": "every table and index", "why_tests_cant": "packing of 12-bit pairs at every parity and position", "anchors": ["dfir_ntfs/addons/FAT.py:FAT.get_element", "dfir_ntfs/addons/FAT.py:FAT.is_allocated"]}
{"id": "C35", "title": "FAT type is decided by the cluster count alone", "statement": "An accepted boot sector is treated as FAT12, FAT16 or FAT32 exactly according to the number of data clusters and the 16-bit FAT size field; the three tests are mutually exclusive and the parser never uses a width different from the accepted one.", "quantifier": "every boot sector", "why_tests_cant": "all combinations of BPB fields", "anchors": ["dfir_ntfs/addons/FAT.py:IsFileSystem32", "dfir_ntfs/addons/FAT.py:IsFileSystem16", "dfir_ntfs/addons/FAT.py:IsFileSystem12", "dfir_ntfs/addons/FAT.py:BSBPB", "dfir_ntfs/addons/FAT.py:GetCountOfClusters"]}
{"id": "C36", "title": "A long name is attached only to its own short entry", "statement": "A long file name is attached to an allocated short entry only if the preceding long entries form a complete descending sequence n..1 with one checksum equal to the checksum of that short name; and for a directory made of well-formed long-name sets every file gets exactly its long name.", "quantifier": "every directory buffer", "why_tests_cant": "arbitrary interleavings of deleted, orphaned and valid entries", "anchors": ["dfir_ntfs/addons/FAT.py:DirectoryEntries.entries", "dfir_ntfs/addons/FAT.py:BuildLongName", "dfir_ntfs/addons/FAT.py:BuildChecksum"]}
{"id": "C37", "title": "Single-byte corruption of checksummed names is detected", "statement": "Changing any one byte of a short name changes its long-name checksum; changing any one byte of an exFAT entry set outside the checksum field changes its checksum, and changing the checksum field itself makes the check fail.", "quantifier": "every name / entry set, position and replacement", "why_tests_cant": "all positions, values and set sizes", "anchors": ["dfir_ntfs/addons/FAT.py:BuildChecksum", "dfir_ntfs/addons/exFAT.py:EntrySetChecksum"]}
{"id": "C38", "title": "FAT dates and times are valid and exact", "statement": "Decoding a FAT date/time word returns the encoded calendar date and time, for every valid encoding; invalid encodings give None; no exception escapes.", "quantifier": "all 2^16 dates, times and 2^8 centisecond values and every combination", "why_tests_cant": "combinations 2^40", "anchors": ["dfir_ntfs/addons/FAT.py:DecodeFATDate", "dfir_ntfs/addons/FAT.py:DecodeFATTime", "dfir_ntfs/addons/exFAT.py:DecodeFATTimestamp"]}
{"id": "C39", "title": "Directory walks terminate on any volume", "statement": "Walking a FAT or exFAT volume terminates for every volume content, including directories that contain themselves or an ancestor. It begins with the root directory named by the boot sector. A directory is entered if its first cluster exists and the directory is not deleted or its cluster is free (in FAT also: still begins like a directory; a deleted directory of one cluster goes on in the next one under stated conditions); a deleted directory whose cluster is in use is noted, and read at the end if it was not visited and begins like a directory.", "quantifier": "every volume content", "why_tests_cant": "cyclic directory graphs of any size", "anchors": ["dfir_ntfs/addons/FAT.py:FileSystemParser.walk", "dfir_ntfs/addons/exFAT.py:FileSystemParser.walk"]}
{"id": "C40", "title": "Chain reads return the clusters in order, cut at the file size", "statement": "Reading a chain returns the concatenation of the clusters of the chain in order, at most file-size bytes; when the chain is intact and long enough, exactly file-size bytes. The table in use, the root directory and the clusters of a FAT volume are where the boot sector places them and do not overlap.", "quantifier": "every volume, chain and size", "why_tests_cant": "unbounded chain lengths", "anchors": ["dfir_ntfs/addons/FAT.py:FileSystemParser.read_chain", "dfir_ntfs/addons/exFAT.py:FileSystemParser.read_chain"]}
{"id": "C41", "title": "exFAT boot region corruption is detected", "statement": "Changing any one byte of the first eleven boot sectors outside the volume-flags and percent-in-use bytes makes an accepted boot region be rejected; changing only those bytes does not affect the checksum.", "quantifier": "every boot region, position and value", "why_tests_cant": "11 sectors of any size up to 4096 bytes", "anchors": ["dfir_ntfs/addons/exFAT.py:BR", "dfir_ntfs/addons/exFAT.py:BR.calculate_checksum"]}
{"id": "C42", "title": "exFAT names never contain forbidden characters", "statement": "A name produced from exFAT name entries never contains a path separator or other forbidden character and is never \".\" or \"..\".", "quantifier": "every list of name entries and name length", "why_tests_cant": "all names and lengths", "anchors": ["dfir_ntfs/addons/exFAT.py:BuildName"]}
{"id": "C43", "title": "exFAT time zone decoding", "statement": "The UTC offset decoded is the 7-bit two's complement value (in 15 minute units) if and only if the valid bit is set.", "quantifier": "every byte", "why_tests_cant": "must hold for each encoding; combined with timestamps", "anchors": ["dfir_ntfs/addons/exFAT.py:DecodeFATTimezone"]}
{"id": "C44", "title": "Shadow copy block translation is exact", "statement": "In a selected shadow copy an offset is translated into 32 sector locations exactly as a per-sector rule says: a regular entry (except for sectors in an overlay of the store), else the target of the last forwarder, else overlays and below them the next newer store, the live volume or zeros as the two bitmaps say. Otherwise ValueError is raised, and only for an offset that is not a block of the volume or a forwarder leading to such an offset. (\"Overlays always come first\" is false: a forwarder target can be read as zeros in spite of an overlay.)", "quantifier": "every volume content, every selected store with any chain of newer stores, every offset", "why_tests_cant": "store chains, tables and bitmaps are unbounded", "anchors": ["dfir_ntfs/ShadowCopy.py:ShadowParser.translate_exact_offset", "dfir_ntfs/ShadowCopy.py:ShadowParserTwoVolumes.translate_exact_offset"]}
{"id": "C45", "title": "Shadow copy reads are consistent for any seek/read history", "statement": "For any sequence of seek, tell and read calls after a successful selection the position changes by seek and read only and every read returns consecutive bytes of one virtual volume (a fixed function of the offset; with debug_fill null blocks and sectors in their own place are replaced by the marking texts, which two volumes do not support); it is short only at the end of the volume or where the file ends in a block; an error comes from the block at the position left. Before a selection every call raises ValueError. (False, shown by counterexamples: reads with a size stop at the end of the volume; a failed read leaves the position; after a failed selection nothing can be read.)", "quantifier": "every volume content, selection and history", "why_tests_cant": "histories unbounded", "anchors": ["dfir_ntfs/ShadowCopy.py:ShadowParser.read", "dfir_ntfs/ShadowCopy.py:ShadowParser.seek", "dfir_ntfs/ShadowCopy.py:ShadowParser.tell", "dfir_ntfs/ShadowCopy.py:ShadowParser.read_at_exact_offset"]}
{"id": "C46", "title": "Selecting a shadow copy links consecutive stores and terminates without block loops", "statement": "A successful selection yields the store asked for, followed by the stores with the next stack positions one by one until there is no item with the next position; each is read from the blocks its two items name. If no block chain of a store has a loop the selection ends and its result does not depend on the step bound; with a loop a store is never selected. (\"Selecting always terminates\" is false.)", "quantifier": "every set of control block items and every volume content", "why_tests_cant": "arbitrary item sets, including duplicates and gaps", "anchors": ["dfir_ntfs/ShadowCopy.py:ShadowParser.select_shadow", "dfir_ntfs/ShadowCopy.py:ShadowParserTwoVolumes.select_shadow"]}
{"id": "C47", "title": "Opening a volume with shadow copies diverges exactly on a control block loop", "statement": "Opening a shadow copy parser runs forever if and only if the volume has a valid start block and the valid control blocks, each naming its own offset, form a loop; otherwise it ends within as many blocks as the volume has bytes. Which start blocks, control blocks and other blocks are valid is stated by their bytes. (\"Opening always terminates\" is false.)", "quantifier": "every volume content, one or two volumes", "why_tests_cant": "block chains may contain loops of any length", "anchors": ["dfir_ntfs/ShadowCopy.py:ShadowParser.__init__", "dfir_ntfs/ShadowCopy.py:ShadowParserTwoVolumes.__init__"]}
{"id": "C48", "title": "Extended partition chains terminate without repeats", "statement": "Enumerating EBR partitions terminates for every disk content; no EBR sector is processed twice.", "quantifier": "every disk content", "why_tests_cant": "loops of any length", "anchors": ["dfir_ntfs/PartitionTable.py:MBR.read_ebr_partitions"]}
{"id": "C49", "title": "An accepted GPT header is intact", "statement": "A GPT header is accepted only if its signature, size, own CRC32 and partition-array CRC32 match; changing any single byte of an accepted header other than its size field, or any four consecutive bytes of the partition array, makes that copy be rejected (a change of the size field can go undetected).", "quantifier": "every disk content, position and value", "why_tests_cant": "all byte positions and values", "anchors": ["dfir_ntfs/PartitionTable.py:GPT.read_gpt_header_internal"]}
{"id": "C50", "title": "GPT and MBR partition entries are enumerated exactly", "statement": "For a well-formed table every used entry is returned, in order, with the LBA range stored, and no unused one.", "quantifier": "every table", "why_tests_cant": "any number of entries", "anchors": ["dfir_ntfs/PartitionTable.py:GPT.read_gpt_partitions", "dfir_ntfs/PartitionTable.py:MBR.read_mbr_partitions"]}
{"id": "C51", "title": "Move table entries are enumerated exactly", "statement": "Iterating the entries of a tracking log yields exactly the used entries of every whole sector in order; the timestamp range of an entry is well ordered and contains every FILETIME that truncates to the stored value.", "quantifier": "every log content", "why_tests_cant": "any number of sectors", "anchors": ["dfir_ntfs/MoveTable.py:MoveTableParser.log_entries", "dfir_ntfs/MoveTable.py:LogEntry.get_timestamp"]}
{"id": "C52", "title": "Slack carving reports exactly the plausible names and terminates", "statement": "Carving file names from slack space ends without an exception on any list of buffers. For each buffer it reports, in order, the attributes found by a scan in steps of two bytes for positions with four timestamps between 1997 and 2060 and a name of 1 to 255 characters without slash and null; a plausible position of the right parity is lost only if it is less than 68 bytes after a reported one. The partial name reported is the last run of five or more printable characters in front of the first attribute. The type of the name and the fit of its length are not checked (counterexample proved), nor are positions of the other parity (counterexample proved).", "quantifier": "every list of buffers", "why_tests_cant": "arbitrary garbage", "anchors": ["dfir_ntfs/MFT.py:SlackSpace.carve"]}
{"id": "C53", "title": "Fast and tail page recovery prefers newer pages", "statement": "Recovery uses only valid pages: in version 1.1 the valid tail page with the greater last end LSN is written to the offset in its header; in version 2 exactly the valid pages 2 to 33 whose last LSN is above that of every later page are written, in ascending order of LSN, so a valid log page replaced by a fast page was older and the newest of several wins. (A tail page is not compared with the page it replaces, and the home offset of a fast page is not checked; both are shown by counterexamples.)", "quantifier": "every $LogFile content", "why_tests_cant": "all page orders and ages", "anchors": ["dfir_ntfs/LogFile.py:LogFileParser.apply_tail_page", "dfir_ntfs/LogFile.py:LogFileParser.apply_fast_pages"]}
{"id": "C54", "title": "exFAT entry sets are accepted only when complete", "statement": "An allocated exFAT file entry is reported only if its secondary entries are present, in order (stream extension first, then name entries), and their checksum matches.", "quantifier": "every directory buffer", "why_tests_cant": "arbitrary interleavings", "anchors": ["dfir_ntfs/addons/exFAT.py:DirectoryEntries.entries"]}
{"id": "C55", "title": "Record lookup of log targets", "statement": "The MFT record number computed for a log record from VCN, cluster index and file-record size is the number of the record containing the target byte offset.", "quantifier": "every log record and cluster size", "why_tests_cant": "all geometry combinations", "anchors": ["dfir_ntfs/LogFile.py:NTFSLogRecord.calculate_mft_target_number", "dfir_ntfs/LogFile.py:NTFSLogRecord.calculate_offset_in_target"]}
{"id": "C56", "title": "Index allocations yield exactly the intact index buffers", "statement": "The index buffer size is determined as (update sequence count - 1) * 512 exactly when the first buffer of that size (at most 119808 bytes) is intact; iterating then yields, in increasing order, exactly the buffers that start inside the file and are intact, and skips the torn ones without losing later ones.", "quantifier": "every volume, every list of data runs, every file size", "why_tests_cant": "any number and pattern of torn buffers over any fragmentation", "anchors": ["dfir_ntfs/Attributes.py:IndexAllocation.__init__", "dfir_ntfs/Attributes.py:IndexAllocation.index_buffers"]}
{"id": "C57", "title": "Unix timestamps are exact to the nearest microsecond", "statement": "A Linux timestamp of s seconds and ns nanoseconds is decoded to the nearest microsecond (ties to even) despite the floating-point division; OverflowError is raised exactly for times past year 9999; metadata fields come from their documented positions.", "quantifier": "every seconds value up to 2^64 and nanoseconds value up to 2^32", "why_tests_cant": "2^96 combinations and double rounding", "anchors": ["dfir_ntfs/WSL.py:DecodeUnixtime", "dfir_ntfs/WSL.py:LXATTRB.get_atime", "dfir_ntfs/WSL.py:LXATTRB.get_mtime", "dfir_ntfs/WSL.py:LXATTRB.get_chtime"]}
{"id": "C58", "title": "FAT short names are safe, injective and read back", "statement": "A decoded FAT short name contains no path separator, no dot other than the one before the extension and no other forbidden byte; two different valid 11-byte names (after the translation of the first byte) give different names; a name written in 8.3 form is read back. (Long names have no such guarantee: they may contain a slash, which is shown by a counterexample.)", "quantifier": "every 11-byte short name", "why_tests_cant": "2^88 names", "anchors": ["dfir_ntfs/addons/FAT.py:ParseShortName", "dfir_ntfs/addons/FAT.py:ValidateShortName", "dfir_ntfs/addons/FAT.py:BuildLongName"]}
{"id": "C59", "title": "exFAT boot region validation accepts exactly what the specification allows", "statement": "A boot region is accepted by the constructor exactly when its fields satisfy the listed field constraints (signature, file system name, zeroed area, sizes, offsets, counts, checksum sector), and a rejected region raises a boot region error (a buffer that is too short to hold the fields raises struct.error). The limit used for the cluster heap offset is stricter than the specification, so that a valid region may be rejected, which is shown by a counterexample.", "quantifier": "every byte string given as a boot region", "why_tests_cant": "2^(8*24576) regions; the limits interact", "anchors": ["dfir_ntfs/addons/exFAT.py:BR", "dfir_ntfs/addons/exFAT.py:BR.validate"]}
{"id": "C60", "title": "The exFAT allocation bitmap gives the state of every cluster", "statement": "For every cluster number of the volume (2 to the last one) the state returned is bit number (cluster - 2) of the bitmap taken as one little-endian number; other numbers have no state; a bitmap written from a list of states is read back whatever padding follows it; a bitmap that covers the volume never fails (a shorter one raises IndexError, shown by an example).", "quantifier": "every bitmap, every cluster number", "why_tests_cant": "2^(8n) bitmaps", "anchors": ["dfir_ntfs/addons/exFAT.py:Bitmap.is_allocated"]}
{"id": "C61", "title": "A log file opens with the settings of an intact restart page", "statement": "A $LogFile is opened exactly when at least one of its two restart pages is intact, supported and has a sound restart area (the first intact one is used, two intact ones must agree on the version); the settings are the fields of that page, so a torn restart page does not change the result; otherwise a documented exception (or struct.error) is raised.", "quantifier": "every $LogFile content", "why_tests_cant": "any corruption of either restart page", "anchors": ["dfir_ntfs/LogFile.py:LogFileParser.__init__", "dfir_ntfs/LogFile.py:RestartPage", "dfir_ntfs/LogFile.py:RestartArea"]}
{"id": "C62", "title": "Log records are yielded with the tables as they were at that point", "statement": "parse_ntfs_records yields, client by client and in ascending order of LSN, every collected record of a known type exactly once, with its data, with the open attribute table built from the earlier records only (the latest opening of an attribute wins, a cut entry empties the table) and with the dumps of the last complete checkpoint; it stops with an exception exactly at the first record that is not well formed. (While the names of a checkpoint are missing, the table of the last complete checkpoint is combined with the names of the one before; a short record loses all later records; both are shown by counterexamples.)", "quantifier": "every $LogFile content, every iteration order of sets, every state of the parser", "why_tests_cant": "sequences of records and checkpoints of any length", "anchors": ["dfir_ntfs/LogFile.py:LogFileParser.parse_ntfs_records", "dfir_ntfs/LogFile.py:LogFileParser.sort_lsns"]}
{"id": "C63", "title": "Attribute names and references are found in dumps", "statement": "Looking up an index in a dump of attribute names ends and returns the name of the first entry with that index that the chain of entries reaches; names written into a dump are found again; the target of a nonresident update is taken from the open attribute table, otherwise from the dumps, and never fails.", "quantifier": "every dump, index and log record", "why_tests_cant": "dumps of any size, with any garbage", "anchors": ["dfir_ntfs/LogFile.py:NTFSLogRecord.calculate_mft_target_reference_and_name", "dfir_ntfs/LogFile.py:AttributeNamesDumpParser", "dfir_ntfs/LogFile.py:OpenAttributeTableDumpParser"]}
{"id": "C65", "title": "Carving file control blocks from memory images", "statement": "The carver for file control blocks ends on any image; the candidates are exactly those a page-by-page scan for the signature and timestamps in range gives. The positions of the timestamps are guessed as the most frequent ones (the first seen of several) of the first hundred candidates; ValueError is raised exactly if there are fewer than 25 candidates or a count below 20; otherwise the blocks reported are exactly those with all five timestamps in range at the guessed positions. A block crossing a page is not found (counterexample proved).", "quantifier": "every image and every earlier guess", "why_tests_cant": "arbitrary memory images", "anchors": ["dfir_ntfs/MFT.py:MetadataCarver.carve_fcb_timestamps"]}
{"id": "C66", "title": "The master file table of a volume is found through all its pieces", "statement": "Opening a volume succeeds exactly when the boot sector, the first file record segment, its attribute list (resident or in runs) and, step by step, every segment holding a further piece of the table can be read from the pieces known so far; the file object then has exactly the runs and the size recorded, and reading it gives the content of the table at any offset. A table written in any number of pieces, each described in a segment in front of it, is found. Other volumes raise one of a fixed list of exceptions. (A segment holding two pieces, listed twice, makes a sound table be rejected; counterexample proved.)", "quantifier": "every volume content and offset", "why_tests_cant": "any number of pieces, any fragmentation", "anchors": ["dfir_ntfs/MFT.py:FileSystemParser.__init__", "dfir_ntfs/MFT.py:AttributeRecordNonresident.value_decoded"]}
{"id": "C67", "title": "NTFS field accessors return the field they are named after", "statement": "For every NTFS structure written field by field in the documented order each accessor returns its own field: the header of a file record segment with its 48-bit number (the suggested number if the header is short), $STANDARD_INFORMATION in both forms with the bit fields of its extra flags, $FILE_NAME with signed sizes and its name, volume information and name, extended attribute information, index root, index buffer and its slack, index entries with their attribute and subnode, reparse points of both kinds, object identifiers with the time of time-based ones only, the boot sector.", "quantifier": "every value of every field, any bytes after the structure", "why_tests_cant": "a wrong offset, width or bit shows only for values that differ there", "anchors": ["dfir_ntfs/MFT.py:FileRecordSegment", "dfir_ntfs/Attributes.py:StandardInformation", "dfir_ntfs/Attributes.py:FileName", "dfir_ntfs/Attributes.py:VolumeInformation", "dfir_ntfs/Attributes.py:IndexRoot", "dfir_ntfs/Attributes.py:IndexBuffer", "dfir_ntfs/Attributes.py:IndexEntry", "dfir_ntfs/Attributes.py:ReparsePoint", "dfir_ntfs/Attributes.py:EAInformation", "dfir_ntfs/Attributes.py:ObjectID"]}
{"id": "C68", "title": "FAT and exFAT boot sector accessors and volume state flags", "statement": "For every boot sector written field by field each accessor of the BIOS parameter block and of the exFAT boot region returns its own field, at the places FAT32 and FAT12/16 use; the dirty flags are the two low bits of their byte, the clean and hard error marks are the documented bits of the second table element; the extended fields are returned as the boot signature says. A warning about the type is due exactly for the cluster counts for which the published limits between FAT12 and FAT16 disagree. The free cluster count and the hint for the next free cluster are the fields of the FSINFO sector, which is accepted exactly with its three signatures.", "quantifier": "every value of every field, both formats, every table", "why_tests_cant": "bit positions and offsets of two formats", "anchors": ["dfir_ntfs/addons/FAT.py:BSBPB", "dfir_ntfs/addons/FAT.py:FSINFO", "dfir_ntfs/addons/FAT.py:FAT.is_volume_dirty", "dfir_ntfs/addons/FAT.py:FAT.are_hard_errors_detected", "dfir_ntfs/addons/FAT.py:IsFileSystemUnusual12Or16", "dfir_ntfs/addons/exFAT.py:BR"]}
{"id": "C69", "title": "Move table and shadow copy accessors return the field they are named after", "statement": "For every move table header, sector footer and log entry and for every shadow copy block, start block and control block item written field by field, each accessor returns its own field; the times of the object identifiers are those of the time-based ones; the machine name ends at the first null byte. (Blocks whose own offset is not a multiple of the block size are accepted: the test for it never fires, shown by a counterexample.)", "quantifier": "every value of every field", "why_tests_cant": "a wrong offset shows only for values that differ there", "anchors": ["dfir_ntfs/MoveTable.py:Header", "dfir_ntfs/MoveTable.py:LogSectorFooter", "dfir_ntfs/MoveTable.py:LogEntry", "dfir_ntfs/ShadowCopy.py:ShadowBlock", "dfir_ntfs/ShadowCopy.py:StartBlock", "dfir_ntfs/ShadowCopy.py:ControlBlockItem2", "dfir_ntfs/ShadowCopy.py:ControlBlockItem3"]}
{"id": "C70", "title": "The file record report shows every record with its own facts", "statement": "The report on a $MFT has, record by record in the order of the table, one row for each path of the record (or one without path for a record without names), then one for each name in its index root, then one for each item carved from the slack of its segments; every cell (reference, flags, LSN, path, times, USN, size, streams, identifier time, Linux times) is the documented field of that record, a record whose paths cannot be built has no row, and the report ends early only at a damaged record. (False, shown by counterexamples: a damaged record does not hide later ones; every record in use has a row; the list of streams can be read back.)", "quantifier": "every $MFT content and every tag", "why_tests_cant": "each row depends on the whole table through paths and slack", "anchors": ["ntfs_parser:process_mft", "ntfs_parser:format_timestamp", "ntfs_parser:format_source"]}
{"id": "C71", "title": "Every row of the file record report has the columns of the header", "statement": "Every row written by the report on a $MFT, of whatever kind and whether or not the report ends with an exception, has exactly as many cells as the header.", "quantifier": "every $MFT content", "why_tests_cant": "rows of four kinds, with optional parts", "anchors": ["ntfs_parser:process_mft"]}
{"id": "C72", "title": "The change journal report shows every record in order", "statement": "The report on a change journal has one row for each record of the journal, in order, with the fields of the record, the names of its reason and source flags and the first path of the record it refers to (none if there is no such record); it ends early only at a record whose name does not fit or with a damaged table; with a sound table and journal it is complete. (Counterexample: one bad name hides all later records.)", "quantifier": "every journal and every $MFT content", "why_tests_cant": "any journal against any table", "anchors": ["ntfs_parser:process_usn"]}
{"id": "C73", "title": "The index report shows every name of every index buffer", "statement": "The report on index buffers has, for each directory record in order, one row for each entry of each intact buffer of its $I30 allocation and for each name carved from the slack of the buffers, with the fields of the name and the path of the directory; it ends early only at a damaged record or buffer. (An entry whose name belongs to another directory is shown in the directory of the index; counterexample proved.)", "quantifier": "every volume, every $MFT content", "why_tests_cant": "any number of buffers, torn or not, over any fragmentation", "anchors": ["ntfs_parser:process_indx"]}
{"id": "C74", "title": "A hexadecimal dump shows every byte and is injective", "statement": "The dump of a nonempty byte string consists of lines for each sixteen bytes, with the offset, the two hexadecimal digits of every byte in its column and its printable character; two different byte strings never have the same dump.", "quantifier": "every byte string", "why_tests_cant": "unbounded lengths, including offsets that need more than eight digits", "anchors": ["ntfs_parser:hexdump"]}
{"id": "C75", "title": "The memory image report shows every block found", "statement": "The report on a memory image has exactly one row for each file control block found, in order, with the reference and the five times taken from their own positions; it ends with ValueError and no row if the positions cannot be guessed.", "quantifier": "every image", "why_tests_cant": "arbitrary memory images", "anchors": ["ntfs_parser:process_mem"]}
{"id": "C76", "title": "The log report shows every item of the log with its own facts", "statement": "The report on a log has one block for each restart area and each log record, in the order in which the log is read, then one block with the numbers of the deallocated file records in their order (none if there are none). A block shows the LSN, the transaction, both operations, the target (file number from the position in the table, or the reference and attribute name from the open attribute table) with its path in the given $MFT, the offset, the clusters, dumps of the redo and undo data, and decodes new file records, new attributes, updates of $STANDARD_INFORMATION, index entries, duplicated information and journal records from their documented fields. It ends early only when the parse of the log does, at an item whose values are too short for what is shown of them, or when a path cannot be built; for undamaged input it is complete. (Counterexamples: one short index entry, one short value or one bad journal name hides all later records and the list of deallocated ones.)", "quantifier": "every log, every $MFT content, every set order", "why_tests_cant": "each block depends on the checkpoint tables before it and on the whole $MFT", "anchors": ["ntfs_parser:process_log"]}
{"id": "C77", "title": "Texts of codes and identifiers in the log report lose nothing", "statement": "The text of an operation code, of reason and source codes and of a GUID determines the number or the bytes it stands for: two different values never have the same text. The text of the file attributes determines exactly the named bits. (Counterexample: two different file attribute values with the same text, since unnamed bits are not shown.)", "quantifier": "every code, every identifier", "why_tests_cant": "all combinations of named and unnamed bits", "anchors": ["dfir_ntfs/LogFile.py:ResolveNTFSOperation", "dfir_ntfs/Attributes.py:ResolveFileAttributes", "dfir_ntfs/USN.py:ResolveReasonCodes", "dfir_ntfs/USN.py:ResolveSourceCodes"]}
{"id": "C78", "title": "The report files can be read back exactly", "statement": "A csv file written by the scripts, read by the grammar of RFC 4180 with the line ends of the csv module, gives back exactly the rows written, whatever characters (separators, quotes, line breaks) the names hold; two different lists of rows never give the same file; the files of the file record, change journal, index and memory reports read back as rows of 21, 8, 9 and 6 columns. The log report reads back as exactly the lines of its blocks if no line holds a line feed or is the line of dashes. (False without this condition, shown by a counterexample: a file name holding a block separator forges a block.)", "quantifier": "every list of rows; every input of the reports", "why_tests_cant": "file names are chosen by whoever used the volume; quoting must be right for all of them", "anchors": ["ntfs_parser:format_timestamp", "ntfs_parser:process_mft", "ntfs_parser:process_usn", "ntfs_parser:process_log", "ntfs_parser:process_indx", "ntfs_parser:process_mem"]}
{"id": "C79", "title": "The text of a timestamp is the time", "statement": "The text written for a timestamp, of the forms used by the reports, reads back by the calendar rules (proleptic Gregorian, leap years, month lengths) as exactly the decoded time, for FILETIME, GUID and Unix times; the text for a missing time is the text of no time.", "quantifier": "every time in the range of datetime", "why_tests_cant": "ten thousand years of calendar dates, all microseconds", "anchors": ["ntfs_parser:format_timestamp", "dfir_ntfs/Attributes.py:DecodeFiletime"]}
{"id": "C80", "title": "The report on FAT and exFAT volumes shows every item with its own facts", "statement": "The report of fat_parser is the header and then, for each item of the walk over the volume in order, exactly one row with whether it is deleted, a directory and encrypted, its path (the long name if there is one, a mark for a partial name and for the first volume label), its times, size and raw short name or UTC offsets; every row has nine fields, the file reads back as exactly these rows, and a row determines the facts shown in it.", "quantifier": "every volume, every code page", "why_tests_cant": "any directory tree with any names, times and attributes", "anchors": ["fat_parser:format_tz_item", "fat_parser:format_tz", "fat_parser:format_timestamp", "fat_parser:format_boolean"]}
{"id": "C81", "title": "The FAT and exFAT report is about the right file system", "statement": "A volume whose boot region the exFAT reader accepts is never reported as a FAT volume: the FAT reader rejects its boot sector with the exception that makes the script try exFAT. (False, shown by a counterexample: every exFAT volume that the exFAT reader can open is reported; with an overwritten first sector and a sound backup the script ends with TypeError.)", "quantifier": "every volume", "why_tests_cant": "any content of the boot sectors", "anchors": ["fat_parser:format_boolean"]}
{"id": "C82", "title": "The move table report shows every entry with its own facts", "statement": "The report on a move table is one block with the machine and the volume of the header, then for each entry of the log, in order, exactly one block with the object identifiers, the machine name, the times of time-based identifiers and the range of the entry time, each from its documented field. A name is shown up to the first null byte as its reading in cp866, or in both cp866 and windows-1252 if that reading differs; two different names are never shown alike; two tables with the same report text have the same machine and volume and the same entries one by one.", "quantifier": "every move table file", "why_tests_cant": "any names in any code page, any identifiers", "anchors": ["dfir_ntfs/MoveTable.py:DecodeString", "ntfs_parser:process_movetable"]}
{"id": "C83", "title": "A mounted shadow copy is one unchanging file", "statement": "Whatever the sequence of requests, each request to a mounted shadow copy is answered as the shadow copy alone determines: the answer does not depend on earlier requests (also failed ones). The root directory has exactly one file, listed and found with the same attributes, with the size of the volume; it can be opened for reading only; every request that would change something fails with EROFS; reads return the bytes of the virtual volume at their offset, and for a volume whose blocks can be read a copy in pieces of any size is exactly the volume. The list of shadow copies has exactly one line for each one, with its position and time, in the order of the catalog; without one it says whether copies are disabled or the volume is not valid, and it ends with an exception only for a damaged catalog. (False, shown by a counterexample: every request is answered with a result or an error number; a damaged store raises an exception that ends the mount.)", "quantifier": "every volume, every sequence of requests", "why_tests_cant": "unbounded sequences of requests", "anchors": ["vsc_mount:VSCFS", "vsc_mount:VSCFS2", "vsc_mount:VSCFS.read", "vsc_mount:VSCFS.readdir", "vsc_mount:VSCFS.lookup", "vsc_mount:VSCFS.getattr", "vsc_mount:VSCFS.open", "dfir_ntfs/ShadowCopy.py:ShadowParser.shadows"]}
{"id": "C84", "title": "The report on a volume has a section for each shadow copy", "statement": "The report on a volume and its shadow copies consists of the report on the $MFT of the volume, with the header, and then, for each shadow copy of the catalog in its order, the report on the $MFT in the volume this copy shows, without header and with its own stack position as source; what is shown for a copy does not depend on the copies selected before. A volume without shadow copies has the first section only. The report ends early only at a section whose store cannot be selected or read, whose volume has no $MFT that can be read, or whose own report ends early; then all sections before it are complete. If the copies can be read, the complete report is produced.", "quantifier": "every volume, every catalog, every number of shadow copies", "why_tests_cant": "the state of the parser of shadow copies is carried from one copy to the next", "anchors": ["ntfs_parser:process_all_mft", "ntfs_parser:process_mft", "dfir_ntfs/ShadowCopy.py:ShadowParser.select_shadow", "dfir_ntfs/ShadowCopy.py:ShadowParser.shadows", "dfir_ntfs/MFT.py:FileSystemParser"]}
{"id": "C85", "title": "Every report can be written as UTF-8", "statement": "The text of every report (file records, journal, log, indexes, file control blocks, move table, volume with shadow copies, FAT and exFAT volume) consists of Unicode scalar values whatever the input bytes are, so that no name or path found in the evidence makes the encoder of the output file raise UnicodeEncodeError; and the bytes written are well-formed UTF-8 that decodes to exactly this text and to no other one. (For FAT short names: if the code page gives scalar values.)", "quantifier": "every content of every input file", "why_tests_cant": "one lone surrogate in one name among millions would end the report", "anchors": ["ntfs_parser:process_mft", "ntfs_parser:process_usn", "ntfs_parser:process_log", "ntfs_parser:process_indx", "ntfs_parser:process_mem", "ntfs_parser:process_movetable", "ntfs_parser:process_all_mft", "fat_parser:format_timestamp"]}
{"id": "C86", "title": "The main programs change nothing but the output file", "statement": "ntfs_parser and fat_parser, for every command line: if the command line asks for no report (number of arguments, mode, offset), or an input file is missing, or the output cannot be opened, no file changes. Otherwise the only file that changes is the output file, and if it is none of the input files it holds exactly the text of the report asked for, in UTF-8, computed from the contents of the input files. (\"Input files never change\" is false: if the output path names an input file, by any of its names, the evidence is emptied before it is read.)", "quantifier": "every set of files, every command line", "why_tests_cant": "paths can name one file in many ways; combinations of modes, arguments and missing files", "anchors": ["ntfs_parser:sys.argv", "ntfs_parser:open", "fat_parser:sys.argv", "fat_parser:open"]}
{"id": "C87", "title": "Every report ends", "statement": "Whatever bytes the input files contain, every report of ntfs_parser (--mft, --usn, --log, --indx, --mem, --move) and the report of fat_parser ends after finitely many steps, normally or with an exception: no attribute, cluster chain, parent directory, directory entry, log record, index page or run list can make the program loop for ever. The report on all shadow copies (--all-mft) ends too, provided no chain of shadow copy blocks leads back to itself. (Without this condition it is false: a catalog block that is followed by itself keeps the program busy for ever.)", "quantifier": "every content of the input files (tables up to 2^58 bytes), every command line", "why_tests_cant": "an endless loop needs a crafted combination of links over the whole file; a test that does not end says nothing about the other inputs", "anchors": ["ntfs_parser:process_mft", "ntfs_parser:process_usn", "ntfs_parser:process_log", "ntfs_parser:process_indx", "ntfs_parser:process_mem", "ntfs_parser:process_movetable", "ntfs_parser:process_all_mft", "fat_parser:FileSystemParser"]}
{"id": "C88", "title": "vsc_mount mounts the shadow copy that is asked for", "statement": "For every command line of vsc_mount and every set of files: the usage is shown if and only if the command line has none of the forms of the usage text (a command line has at most one meaning). A file system is mounted, at the mount point given, if and only if that is a directory, the image (with --mount-two also the storage image) exists, and the shadow copy with that stack position can be selected on the volume at that offset; it has the fill mode asked for, and every request to it is answered from that shadow copy. --list mounts nothing and lists the shadow copies of the volume at the offset given. No file is written. (\"The message that the image does not exist is shown only if it does not\" is false: a negative offset gives it too.)", "quantifier": "every set of files and directories, every command line", "why_tests_cant": "combinations of modes, numbers of arguments, missing files and directories, texts that are no numbers, offsets out of range", "anchors": ["vsc_mount:sys.argv", "vsc_mount:os.path.isdir", "vsc_mount:VSCFS"]}
{"id": "C89", "title": "The texts of attribute types and of FAT and exFAT file attributes say what the codes are", "statement": "For every code: ResolveAttributeType gives the name of the attribute type, or the code in hexadecimal if it has none, and no two codes have the same text. ResolveFileAttributes of the FAT and the exFAT module gives the names of exactly the known bits that are set, in ascending order; two values have the same text if and only if they agree in the six known bits.", "quantifier": "every non-negative code", "why_tests_cant": "the codes are 32-bit numbers; a wrong entry in a table or a lost bit shows only for the codes concerned", "anchors": ["dfir_ntfs/MFT.py:ResolveAttributeType", "dfir_ntfs/addons/FAT.py:ResolveFileAttributes", "dfir_ntfs/addons/exFAT.py:ResolveFileAttributes"]}
