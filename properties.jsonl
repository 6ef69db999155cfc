{"id": "C01", "title": "File kind is decided by the leading bytes", "statement": "UnmarshalFile rejects every input shorter than two bytes; an input whose first byte is 0x76 is either reported as VEHICLE_UNIT or rejected, an input starting 00 02 is reported as DRIVER_CARD or RAW_CARD or rejected, and every other input is rejected. No successful result ever carries another type or more than one payload.", "quantifier": "all byte strings", "why_tests_cant": "The input space is unbounded; tests sample a handful of real files and never the garbage that reaches an upload endpoint.", "anchors": ["unmarshal.go:UnmarshalFile"]}
{"id": "C02", "title": "Raw card files re-serialise to the same bytes", "statement": "Whenever UnmarshalFile returns a RAW_CARD file, MarshalFile of that file returns exactly the input bytes.", "quantifier": "all byte strings accepted as RAW_CARD", "why_tests_cant": "Byte-exactness has to hold for every sequence of records with arbitrary identifiers, lengths and contents.", "anchors": ["unmarshal.go:UnmarshalFile", "marshal.go:MarshalFile", "internal/card/rawcardfile.go:UnmarshalRawCardFile", "internal/card/rawcardfile.go:MarshalRawCardFile"]}
{"id": "C03", "title": "Card framing recovers exactly the records that were concatenated", "statement": "For every list of records (2-byte identifier, appendix byte, value) whose values are at most 65530 bytes, splitting their concatenated encodings yields precisely those records, in order, each with the right identifier, generation, data/signature role, length and value - independently of how the buffered reader happens to cut the stream.", "quantifier": "all finite lists of records with values up to 65530 bytes", "why_tests_cant": "The buffered scanner refills, shifts and grows its buffer at positions that depend on all preceding record sizes; only an invariant covers every alignment.", "anchors": ["internal/card/rawcardfile.go:scanCardFile", "internal/card/rawcardfile.go:unmarshalRawCardFileRecord"]}
{"id": "C04", "title": "Truncated card downloads are never accepted", "statement": "If a byte string is a strict prefix of a well-formed sequence of card records and does not end on a record boundary, parsing it as a card file returns an error - never a shortened file and never a panic.", "quantifier": "all well-formed record sequences and all cut points inside a record", "why_tests_cant": "Cut points times contents are unbounded; tests check one or two cuts.", "anchors": ["internal/card/rawcardfile.go:scanCardFile", "internal/card/rawcardfile.go:UnmarshalRawCardFile"]}
{"id": "C05", "title": "Parsing a card dump never crashes the process", "statement": "For every byte string that does not start with 0x76, UnmarshalFile returns (a file or an error); it never panics.", "quantifier": "all byte strings starting 00 02 (or with any first byte other than 0x76)", "why_tests_cant": "Absence of panics is a statement about every input, including the 65531-byte record length where 16-bit offset arithmetic wraps.", "anchors": ["unmarshal.go:UnmarshalFile", "internal/card/rawcardfile.go:scanCardFile"]}
{"id": "C06", "title": "Parsing a vehicle-unit dump never crashes the process", "statement": "For every byte string starting with 0x76, UnmarshalFile returns (a file or an error); it never panics.", "quantifier": "all byte strings starting with 0x76", "why_tests_cant": "Absence of panics is universal; truncated vehicle-unit downloads reach size computations that index past the end.", "anchors": ["internal/vu/raw_vehicle_unit_file.go:unmarshalRawVehicleUnitFile", "internal/vu/raw_vehicle_unit_file.go:sizeOfTransferValue"]}
{"id": "C07", "title": "Every legal record length is accepted", "statement": "A card record may carry any value length expressible in its two-byte length field (0..65535); the parser accepts each such record.", "quantifier": "all record lengths 0..65535 at all positions in a file", "why_tests_cant": "Only lengths at the very top of the range misbehave, and only in combination with buffer state.", "anchors": ["internal/card/rawcardfile.go:scanCardFile"]}
{"id": "C08", "title": "Card type inference is a function of the set of files present", "statement": "The inferred card type depends only on the set of elementary files carried by data records: it does not change under reordering, duplication, signatures, record contents or generation bits, and the result is the first card type (in schema order) whose permitted files include all of them, or unspecified if there is none.", "quantifier": "all sequences of raw card records", "why_tests_cant": "Order- and content-independence quantify over all permutations and contents.", "anchors": ["internal/card/infer.go:InferFileType", "internal/card/infer.go:hasAllElementaryFiles"]}
{"id": "C09", "title": "Only driver cards are parsed as driver cards", "statement": "A complete dump of a workshop, control or company card (every file that card type defines) is never classified as a driver card: UnmarshalFile reports it as RAW_CARD.", "quantifier": "all dumps whose set of files is the full set of one of the card types", "why_tests_cant": "The classification is a set-inclusion race between card types and must be right for every combination of optional files.", "anchors": ["internal/card/infer.go:InferFileType", "unmarshal.go:UnmarshalFile"]}
{"id": "C10", "title": "Data is filed under the application it was read from", "statement": "In every accepted driver card, data records with an appendix 00 populate only the first-generation application and those with appendix 02 only the second-generation application; the content of one never influences the parsed content of the other.", "quantifier": "all accepted driver card files", "why_tests_cant": "Requires comparing arbitrary pairs of files that differ in one application.", "anchors": ["internal/card/driver_card_file.go:unmarshalDriverCardFile"]}
{"id": "C11", "title": "A signature is attached only to the file it signs", "statement": "A signature record is attached to a data record only if it directly follows it and names the same file in the same generation; a signature without such a data record makes parsing fail.", "quantifier": "all sequences of data and signature records", "why_tests_cant": "Pairing is a property of every interleaving of the two record kinds and two generations.", "anchors": ["internal/card/driver_card_file.go:unmarshalDriverCardFile"]}
{"id": "C12", "title": "No downloaded file is silently ignored", "statement": "Every data record of an accepted driver card is represented in the returned message; a record the parser does not understand causes an error rather than being dropped.", "quantifier": "all accepted driver card files and all records in them", "why_tests_cant": "Loss is invisible to tests that only compare against the parser's own golden output.", "anchors": ["internal/card/driver_card_file.go:unmarshalDriverCardFile"]}
{"id": "C13", "title": "The order of files in a driver card dump is irrelevant", "statement": "If two driver card dumps contain the same data records (each with its signature) with distinct file/generation pairs in different orders, they parse to the same message, or both are rejected.", "quantifier": "all permutations of all record sequences", "why_tests_cant": "Factorially many orders; tests use the order in which one device happened to write.", "anchors": ["internal/card/driver_card_file.go:unmarshalDriverCardFile"]}
{"id": "C14", "title": "Repeated files: the last occurrence wins", "statement": "If a file occurs several times in the same generation, the parsed content is that of its last occurrence, provided all occurrences are individually acceptable.", "quantifier": "all record sequences with repeated files", "why_tests_cant": "Ranges over all histories of overwrites.", "anchors": ["internal/card/driver_card_file.go:unmarshalDriverCardFile"]}
{"id": "C15", "title": "Second-generation certificates are accepted", "statement": "A second-generation card carries a Card_MA certificate in file C100 of the second-generation application; a dump containing it is accepted and the certificate is returned.", "quantifier": "all dumps containing a C100 record with appendix 02", "why_tests_cant": "The claim is about every dump with such a record, whatever else it contains.", "anchors": ["internal/card/infer.go:mapFidToElementaryFileType", "internal/card/driver_card_file.go:unmarshalDriverCardFile"]}
{"id": "C16", "title": "Driver cards re-serialise to the same bytes", "statement": "Whenever UnmarshalFile returns a DRIVER_CARD file, MarshalFile succeeds and returns exactly the input bytes (README: 100% binary marshal/unmarshal round-trip accuracy).", "quantifier": "all byte strings accepted as DRIVER_CARD", "why_tests_cant": "The claim is universal over card contents; golden tests compare the parser with itself.", "anchors": ["marshal.go:MarshalFile", "internal/card/driver_card_file.go:appendDriverCard", "README.md"]}
{"id": "C17", "title": "Signatures survive re-serialisation", "statement": "The signature bytes attached to each file of a parsed driver card are written back unchanged by MarshalFile.", "quantifier": "all accepted driver card files and all signature values", "why_tests_cant": "Needs every signature value and length, not one sample.", "anchors": ["internal/card/driver_card_file.go:appendTlv", "internal/card/driver_card_file.go:appendTlvG2"]}
{"id": "C18", "title": "Second-generation content survives re-serialisation", "statement": "Every second-generation file present in a parsed driver card is present in the bytes produced by MarshalFile.", "quantifier": "all driver card messages", "why_tests_cant": "Quantifies over all combinations of present and absent files.", "anchors": ["internal/card/driver_card_file.go:appendDriverCard"]}
{"id": "C19", "title": "Serialised driver cards can be read back", "statement": "The bytes produced by MarshalFile for a parsed driver card are themselves accepted by UnmarshalFile, and a further marshal/unmarshal cycle changes nothing (normalisation is reached after one cycle).", "quantifier": "all accepted driver card files", "why_tests_cant": "A fixpoint statement about all inputs; each test exercises one.", "anchors": ["internal/card/driver_card_file.go:appendDriverCard", "internal/card/driver_card_file.go:unmarshalDriverCardFile", "marshal.go:MarshalFile"]}
{"id": "C20", "title": "Whatever parses can be serialised", "statement": "MarshalFile never fails on a file obtained from UnmarshalFile.", "quantifier": "all accepted inputs of type DRIVER_CARD or RAW_CARD", "why_tests_cant": "Failure depends on single field values (for example nation codes) deep inside arbitrary cards.", "anchors": ["marshal.go:MarshalFile", "internal/card/driver_card_file.go:appendDriverCard", "internal/dd/vehicle_registration.go:AppendVehicleRegistration"]}
{"id": "C21", "title": "Timestamps round-trip", "statement": "Every 4-byte card time decodes to the instant it denotes (zero meaning absent) and encodes back to the same bytes; encoding then decoding returns any whole-second time from 1 to 2^32-1; times with a sub-second part are refused, and times outside the range are not representable.", "quantifier": "all 2^32 encodings and all timestamps", "why_tests_cant": "2^32 encodings and unbounded timestamps.", "anchors": ["internal/dd/time_real.go:UnmarshalTimeReal", "internal/dd/time_real.go:AppendTimeReal"]}
{"id": "C22", "title": "Odometers and distances round-trip", "statement": "Every 3-byte odometer decodes to its big-endian value and encodes back to the same bytes; encoding keeps exactly the value modulo 2^24.", "quantifier": "all 2^24 encodings, all 32-bit values", "why_tests_cant": "Exhaustive over 2^32 values.", "anchors": ["internal/dd/odometer.go:UnmarshalOdometer", "internal/dd/odometer.go:AppendOdometer"]}
{"id": "C23", "title": "BCD numbers round-trip", "statement": "Decoding a BCD string gives the decimal number its nibbles spell and fails exactly when some nibble is not a decimal digit; encoding a non-negative number into a width of n bytes succeeds exactly when it has at most 2n digits, is zero-padded, and decodes to the same number.", "quantifier": "all byte strings and all numbers and widths", "why_tests_cant": "Unbounded widths and 10^2n values.", "anchors": ["internal/dd/bcd.go:decodeBCD", "internal/dd/bcd.go:appendBCD", "internal/dd/bcd_string.go:UnmarshalBcdString"]}
{"id": "C24", "title": "Calendar dates round-trip", "statement": "Every 4-byte BCD date and 2-byte month/year decodes to the digits it spells, and re-encoding a decoded value reproduces the original bytes.", "quantifier": "all 2^32 dates and 2^16 month/year encodings", "why_tests_cant": "Exhaustive over encodings including non-decimal nibbles.", "anchors": ["internal/dd/date.go:UnmarshalDate", "internal/dd/date.go:AppendDate", "internal/dd/month_year.go:UnmarshalMonthYear", "internal/dd/month_year.go:AppendMonthYear"]}
{"id": "C25", "title": "Card structure versions round-trip", "statement": "The two version bytes decode to their major/minor numbers and encode back to the same bytes; the numbers uniquely identify the bytes for all decimal versions.", "quantifier": "all 2^16 encodings", "why_tests_cant": "Exhaustive over encodings including non-decimal nibbles.", "anchors": ["internal/dd/card_structure_version.go:UnmarshalCardStructureVersion", "internal/dd/card_structure_version.go:AppendCardStructureVersion"]}
{"id": "C26", "title": "Protocol codes and enumerations correspond one-to-one", "statement": "For each protocol enumeration, decoding a code and encoding the result gives back the code, encoding a value and decoding it gives back the value, and exactly the codes without a value are refused.", "quantifier": "all codes 0..255 (and all enumeration values) of every protocol enumeration", "why_tests_cant": "A table property over the cross product of tables and codes that must stay injective as tables grow.", "anchors": ["internal/dd/enum.go:UnmarshalEnum", "internal/dd/enum.go:MarshalEnum"]}
{"id": "C27", "title": "Positions round-trip", "statement": "Every 6-byte coordinate pair decodes to two signed 24-bit numbers and encodes back to the same bytes, and every in-range pair of numbers survives encode/decode; GNSS records round-trip byte-exactly.", "quantifier": "all 2^48 coordinate encodings, all GNSS records", "why_tests_cant": "2^48 encodings.", "anchors": ["internal/dd/geo_coordinates.go:UnmarshalGeoCoordinates", "internal/dd/geo_coordinates.go:AppendGeoCoordinates", "internal/dd/gnss_place_record.go:UnmarshalGNSSPlaceRecord"]}
{"id": "C28", "title": "Code-paged text round-trips byte-exactly", "statement": "Every code-paged text field (code page byte plus data) re-encodes to the same bytes after parsing, whatever the code page and content; building a field from text pads with spaces to the declared length and refuses text that does not fit.", "quantifier": "all field lengths, code pages and contents", "why_tests_cant": "256^35 contents per field.", "anchors": ["internal/dd/string_value.go:UnmarshalStringValue", "internal/dd/string_value.go:AppendStringValue"]}
{"id": "C29", "title": "Plain text fields round-trip byte-exactly", "statement": "Every IA5 field re-encodes to the same bytes after parsing; a field built from text alone is padded to its declared length and text that is too long is refused.", "quantifier": "all field lengths and contents", "why_tests_cant": "Unbounded contents.", "anchors": ["internal/dd/ia5_string_value.go:UnmarshalIa5StringValue", "internal/dd/ia5_string_value.go:AppendIa5StringValue"]}
{"id": "C30", "title": "Text handed to the user is valid UTF-8 and free of padding", "statement": "Every text value in a parsed driver card is valid UTF-8 and carries no leading or trailing padding characters, for any input bytes.", "quantifier": "all text fields of all accepted files", "why_tests_cant": "All byte sequences, including malformed multi-byte sequences at the edges.", "anchors": ["internal/dd/string_value.go:decodeWithCodePage", "internal/dd/ia5_string_value.go:UnmarshalIa5StringValue", "internal/dd/card_vehicle_record_g2.go:UnmarshalCardVehicleRecordG2"]}
{"id": "C31", "title": "Vehicle registrations round-trip or are refused", "statement": "A 15-byte vehicle registration re-encodes to the same bytes exactly when its nation code is known; otherwise parsing succeeds but serialising is refused, so no wrong nation is ever written.", "quantifier": "all 2^120 encodings", "why_tests_cant": "2^120 encodings.", "anchors": ["internal/dd/vehicle_registration.go:UnmarshalVehicleRegistration", "internal/dd/vehicle_registration.go:AppendVehicleRegistration"]}
{"id": "C32", "title": "Activity changes round-trip", "statement": "Every 16-bit activity change decodes to slot, crew status, card status, activity and minute and encodes back to the same 16 bits; distinct encodings decode to distinct values.", "quantifier": "all 2^16 encodings and all values", "why_tests_cant": "Needs both directions for every combination of flags, including minutes above 1439.", "anchors": ["internal/dd/activity_change_info.go:UnmarshalActivityChangeInfo", "internal/dd/activity_change_info.go:AppendActivityChangeInfo"]}
{"id": "C33", "title": "Control types round-trip", "statement": "The control type byte decodes to its five flags; re-encoding a decoded value reproduces the byte, including reserved bits.", "quantifier": "all 256 bytes and all flag/raw combinations", "why_tests_cant": "Covers messages with edited flags and preserved raw bytes.", "anchors": ["internal/dd/controltype.go:UnmarshalControlType", "internal/dd/controltype.go:AppendControlType", "internal/card/control_activity.go:appendCardControlActivityData"]}
{"id": "C34", "title": "Application identification round-trips", "statement": "The card application identification files of both generations, and the version-2 supplement, re-encode to the same bytes after parsing, and every announced count survives.", "quantifier": "all 10-, 17- and 4-byte contents", "why_tests_cant": "2^136 contents.", "anchors": ["internal/card/application_identification.go", "internal/card/application_identification_g2.go", "internal/card/application_identification_v2.go"]}
{"id": "C35", "title": "Chip and card hardware identification round-trips", "statement": "The ICC and IC files re-encode to the same bytes after parsing.", "quantifier": "all 25-byte and 8-byte contents", "why_tests_cant": "2^200 contents.", "anchors": ["internal/card/icc.go:unmarshalIcc", "internal/card/icc.go:appendIcc", "internal/card/ic.go:unmarshalIc", "internal/dd/extended_serial_number.go:AppendExtendedSerialNumberAsString"]}
{"id": "C36", "title": "Card and holder identification round-trips", "statement": "The 143-byte identification file re-encodes to the same bytes after parsing.", "quantifier": "all 143-byte contents", "why_tests_cant": "256^143 contents including padding variants.", "anchors": ["internal/card/identification.go:unmarshalIdentification", "internal/card/identification.go:appendCardIdentification", "internal/card/identification.go:appendDriverCardHolderIdentification"]}
{"id": "C37", "title": "Events and faults round-trip", "statement": "Events and faults files re-encode to the same bytes after parsing, for any number of records; an unused record is preserved verbatim.", "quantifier": "all record counts and contents", "why_tests_cant": "Unbounded record counts; behaviour changes with total size.", "anchors": ["internal/card/events.go:unmarshalEventsData", "internal/card/faults.go:unmarshalFaultsData"]}
{"id": "C38", "title": "Parsed values are stable", "statement": "The bytes reachable from a parsed events, faults or vehicle-units file equal the input bytes they were decoded from: no later step of the same parse overwrites them.", "quantifier": "all file sizes and contents", "why_tests_cant": "Depends on the interplay of buffer shifts and retained sub-slices across all sizes.", "anchors": ["internal/card/events.go:unmarshalEventsData", "internal/card/faults.go:unmarshalFaultsData", "internal/card/vehicle_units_used.go:parseCardVehicleUnitRecords"]}
{"id": "C39", "title": "Place records round-trip", "statement": "The places files of both generations re-encode to the same bytes after parsing, for any number of records, including records with unknown codes.", "quantifier": "all record counts and contents", "why_tests_cant": "Unbounded counts, 256^10n contents.", "anchors": ["internal/card/places.go:unmarshalPlaces", "internal/card/places_g2.go:unmarshalPlacesG2", "internal/dd/place_record.go", "internal/dd/place_record_g2.go"]}
{"id": "C40", "title": "Vehicles-used records round-trip", "statement": "The vehicles-used files of both generations re-encode to the same bytes after parsing, for any number of records.", "quantifier": "all record counts and contents", "why_tests_cant": "Unbounded counts and contents.", "anchors": ["internal/card/vehicles_used.go:unmarshalVehiclesUsed", "internal/card/vehicles_used_g2.go:unmarshalVehiclesUsedG2", "internal/dd/card_vehicle_record.go", "internal/dd/card_vehicle_record_g2.go"]}
{"id": "C41", "title": "Vehicle-unit and GNSS lists round-trip", "statement": "The vehicle-units-used and GNSS accumulated driving files re-encode to the same bytes after parsing, for any number of records.", "quantifier": "all record counts and contents", "why_tests_cant": "Unbounded counts and contents.", "anchors": ["internal/card/vehicle_units_used.go", "internal/card/gnss_places.go"]}
{"id": "C42", "title": "Specific conditions round-trip", "statement": "The specific-conditions files of both generations re-encode to the same bytes after parsing, and every record before them is listed.", "quantifier": "all record counts and contents", "why_tests_cant": "Unbounded counts; parsing stops at the first undecodable record.", "anchors": ["internal/card/specific_conditions.go", "internal/card/specific_conditions_g2.go", "internal/dd/specific_condition_record.go"]}
{"id": "C43", "title": "Small fixed files round-trip", "statement": "Current usage, last download, control activity and driving licence files of their nominal length re-encode to the same bytes after parsing, and a file longer than nominal is either preserved or rejected.", "quantifier": "all contents and lengths", "why_tests_cant": "All contents and lengths.", "anchors": ["internal/card/current_usage.go", "internal/card/card_download.go", "internal/card/control_activity.go", "internal/card/driving_licence.go"]}
{"id": "C44", "title": "Reading the activity ring always terminates with at most 366 days", "statement": "Parsing driver activity terminates for every buffer and start pointer, returns at most 365 daily records, and returns an error if following the chain would produce 366 records or meets a record length of 1 to 3.", "quantifier": "all cyclic buffers and start pointers, including corrupt and self-referential chains", "why_tests_cant": "Adversarial pointer chains are unbounded; termination and bounds need an argument, not samples.", "anchors": ["internal/card/activity.go:unmarshalDriverActivityData", "internal/card/activity.go:Next"]}
{"id": "C45", "title": "Every stored day is returned, oldest first", "statement": "If a driver activity buffer was written as a ring of daily records (each header holding its own and its predecessor's length, wrapping around the end of the buffer), parsing returns exactly those days in chronological order.", "quantifier": "all rings of up to 365 days, all wrap positions", "why_tests_cant": "The wrap may fall at any byte of any record, including inside a header.", "anchors": ["internal/card/activity.go:parseActivityRecordsWithIterator"]}
{"id": "C46", "title": "Every activity change of a stored day is returned", "statement": "The activity changes listed for a valid day are exactly the 16-bit entries recorded after its header, in order.", "quantifier": "all daily records", "why_tests_cant": "The entry with all bits zero (driver slot, rest, midnight) is a legal value and must not be lost.", "anchors": ["internal/card/activity.go:parseSingleActivityDailyRecord"]}
{"id": "C47", "title": "Driver activity re-serialises verbatim", "statement": "After parsing, the driver activity file re-encodes to the same bytes, whatever the ring contains.", "quantifier": "all accepted activity files", "why_tests_cant": "All ring contents including corrupt ones.", "anchors": ["internal/card/activity.go:appendDriverActivity"]}
{"id": "C48", "title": "A ring rebuilt from its records reads back the same", "statement": "If the raw ring is dropped and the file is serialised from its daily records, parsing the result returns the same daily records.", "quantifier": "all lists of daily records obtained from parsing", "why_tests_cant": "All record lists and sizes.", "anchors": ["internal/card/activity.go:buildCyclicBufferFromRecords"]}
{"id": "C49", "title": "Vehicle-unit downloads are split without loss", "statement": "When a vehicle-unit download is accepted, the concatenation of its transfers (tag plus value) is exactly the input; no byte is skipped, duplicated or reordered.", "quantifier": "all accepted vehicle-unit downloads", "why_tests_cant": "Transfer sizes are data-dependent and nested.", "anchors": ["internal/vu/raw_vehicle_unit_file.go:unmarshalRawVehicleUnitFile", "internal/vu/raw_vehicle_unit_file.go:sizeOfTransferValue"]}
{"id": "C50", "title": "Truncated vehicle-unit downloads are never accepted", "statement": "A strict prefix of an accepted vehicle-unit download that does not end on a transfer boundary is not accepted.", "quantifier": "all accepted downloads and cut points", "why_tests_cant": "All cut points.", "anchors": ["internal/vu/raw_vehicle_unit_file.go:unmarshalRawVehicleUnitFile"]}
{"id": "C51", "title": "Second-generation vehicle-unit downloads are accepted", "statement": "A vehicle-unit download made of well-formed second-generation transfers (record arrays as laid down in the regulation) is accepted.", "quantifier": "all second-generation activity, event and technical transfers", "why_tests_cant": "The claim concerns every record-array combination.", "anchors": ["internal/vu/raw_vehicle_unit_file.go:sizeOfTransferValue", "internal/vu/activities_gen2_v1.go"]}
{"id": "C52", "title": "Vehicle-unit files round-trip", "statement": "MarshalFile of a VEHICLE_UNIT file returned by UnmarshalFile returns the input bytes.", "quantifier": "all accepted vehicle-unit downloads", "why_tests_cant": "Universal over downloads.", "anchors": ["marshal.go:MarshalFile", "internal/vu/vehicle_unit_file.go:MarshalVehicleUnitFile"]}
{"id": "C53", "title": "A vehicle-unit file is of one generation", "statement": "Every accepted vehicle-unit download yields exactly one generation-specific payload, chosen by its first transfer and the presence of version-2 transfers; transfers of another kind make parsing fail; the number and order of its transfers of each kind are preserved and the last overview wins.", "quantifier": "all accepted vehicle-unit downloads", "why_tests_cant": "All transfer sequences.", "anchors": ["internal/vu/vehicle_unit_file.go:unmarshalVehicleUnitFile"]}
{"id": "C54", "title": "Verification only succeeds with an authentic card certificate", "statement": "VerifyFile succeeds on a driver card only if each application present carries a card certificate whose signature verifies under the certification authority certificate that was obtained, so a card whose certificate is absent, altered or signed by someone else is refused.", "quantifier": "all driver card files, resolvers and cryptographic primitives", "why_tests_cant": "Soundness against all adversarial certificates and resolvers.", "anchors": ["verify.go:VerifyFile", "internal/card/driver_card_file.go:VerifyDriverCardFile", "internal/security/rsa_verify.go:verifyRsaCertificate"]}
{"id": "C55", "title": "Verification is anchored in the European root", "statement": "VerifyFile succeeds only if the certification authority certificates used were themselves verified against the European root certificate.", "quantifier": "all driver card files and resolvers", "why_tests_cant": "Adversarial files can supply their own authority certificates.", "anchors": ["verify.go:VerifyFile", "internal/card/driver_card_file.go:verifyGen1Certificates", "internal/card/driver_card_file.go:verifyGen2Certificates"]}
{"id": "C56", "title": "Verification detects altered card data", "statement": "If VerifyFile succeeds for a card, changing any signed file content (activities, events, identity, ...) makes it fail.", "quantifier": "all pairs of files differing in signed content", "why_tests_cant": "Pairs of files; needs noninterference or its negation.", "anchors": ["verify.go:VerifyFile", "internal/card/driver_card_file.go:VerifyDriverCardFile"]}
{"id": "C57", "title": "A certificate marked valid has a valid signature", "statement": "After any verification attempt, a certificate is marked valid only if that attempt verified its signature; a failed attempt leaves it unmarked.", "quantifier": "all certificates, prior markings and authority certificates", "why_tests_cant": "Histories of repeated verification with different authorities.", "anchors": ["internal/security/rsa_verify.go:verifyRsaCertificate", "internal/security/ecc_verify.go:VerifyEccCertificateWithCA"]}
{"id": "C58", "title": "Verification is repeatable", "statement": "Verifying the same file twice with the same resolver gives the same outcome.", "quantifier": "all files and deterministic resolvers", "why_tests_cant": "Verification writes into the file it verifies; only reasoning over all states shows whether a second run agrees.", "anchors": ["verify.go:VerifyFile", "internal/security/rsa_verify.go:verifyRsaCertificate"]}
{"id": "C59", "title": "Verification leaves everything but certificates untouched", "statement": "VerifyFile modifies only decoded certificate fields; every other part of the file - in particular the bytes MarshalFile produces - is unchanged.", "quantifier": "all files and resolvers", "why_tests_cant": "A frame property over all fields.", "anchors": ["verify.go:VerifyFile", "internal/card/driver_card_file.go:VerifyDriverCardFile"]}
{"id": "C60", "title": "Expired certificates are refused", "statement": "VerifyFile fails when a certificate in the chain is outside its validity period.", "quantifier": "all certificates and times", "why_tests_cant": "All dates.", "anchors": ["internal/security/ecc_verify.go:VerifyEccCertificateWithCA", "internal/security/rsa_verify.go:verifyRsaCertificate"]}
{"id": "C61", "title": "Resolver chains try sources in order", "statement": "A chain of certificate sources returns the answer of the first source that succeeds, never consults later ones, fails exactly when all fail, and nesting chains is the same as flattening them.", "quantifier": "all lists of sources and all requests", "why_tests_cant": "All chains and failure patterns.", "anchors": ["internal/cert/chain.go"]}
{"id": "C62", "title": "Certificates are parsed exactly", "statement": "Root, RSA and ECC certificate parsing accepts exactly the documented lengths, never panics, and the fields it extracts are the documented byte ranges; the raw bytes are kept unchanged.", "quantifier": "all byte strings", "why_tests_cant": "All byte strings, including malformed nested lengths.", "anchors": ["internal/security/root_certificate.go", "internal/security/rsa_certificate.go", "internal/security/ecc_certificate.go"]}
{"id": "C63", "title": "Anonymised identification reveals nothing about the holder", "statement": "Anonymising identification files that differ only in personal fields (name, number, birth date, authority, dates) yields identical results, and anonymising twice equals anonymising once.", "quantifier": "all pairs of identification messages", "why_tests_cant": "Noninterference relates pairs of inputs.", "anchors": ["internal/card/identification.go:AnonymizeIdentification", "internal/dd/driver_identification.go:AnonymizeDriverIdentification"]}
{"id": "C64", "title": "Anonymised places and vehicles reveal no times, positions or registrations", "statement": "Anonymising places or vehicles-used files that differ only in times, positions and registrations yields identical results.", "quantifier": "all pairs of messages", "why_tests_cant": "Noninterference relates pairs of inputs.", "anchors": ["internal/card/places.go:AnonymizePlaces", "internal/card/places_g2.go:AnonymizePlacesG2", "internal/card/vehicles_used.go:AnonymizeVehiclesUsed"]}
{"id": "C65", "title": "Edited fields win over preserved bytes", "statement": "When a parsed message is edited and serialised, the edited field values appear in the output and all other bytes of the record are unchanged.", "quantifier": "all records and all edits", "why_tests_cant": "All combinations of preserved bytes and edited fields.", "anchors": ["internal/dd/card_vehicle_record.go:AppendCardVehicleRecord", "internal/dd/place_record.go:AppendPlaceRecord", "internal/dd/specific_condition_record.go:AppendSpecificConditionRecord"]}
{"id": "C66", "title": "Serialised files have consistent lengths", "statement": "In the output of MarshalFile every length field equals the number of bytes that follow it, so the output can be split again.", "quantifier": "all driver card messages", "why_tests_cant": "Length fields are 16-bit while contents are unbounded.", "anchors": ["internal/card/driver_card_file.go:appendTlv", "internal/card/rawcardfile.go:MarshalRawCardFile"]}
{"id": "C67", "title": "Authority certificates shipped with the library are found", "statement": "When the library ships the certificate of a certification authority, the default certificate source answers a request for its reference from the shipped files, without the network.", "quantifier": "for all sets of shipped certificate files, all references (decimal CHRs) and all network behaviours", "why_tests_cant": "Tests run with network access or with a resolver of their own; whether a lookup key can ever equal an embedded path is a statement about all references and all file names.", "anchors": ["internal/cert/certcache/embed.go:21-37", "internal/cert/embedded.go:27-44", "cert.go:36-41"]}
{"id": "C68", "title": "A successful verification has verified something", "statement": "If VerifyFile succeeds on a file returned by UnmarshalFile, at least one certificate signature of that file was verified.", "quantifier": "for all accepted inputs, all certificate sources and all cryptographic primitives", "why_tests_cant": "Tests verify complete cards; vacuous success needs the incomplete cards and other file types that are accepted too.", "anchors": ["verify.go:42-68", "internal/card/driver_card_file.go:1054-1074"]}
{"id": "C69", "title": "Without a certificate source the card's own authority certificates are used", "statement": "VerifyDriverCardFile without a resolver verifies each card certificate with the certification authority certificate stored on the card, as its documentation says.", "quantifier": "for all parsed driver cards and all cryptographic primitives", "why_tests_cant": "The public API always sets a resolver, so no test exercises the fallback; that it can never succeed for the first generation is a statement about all cards.", "anchors": ["internal/card/driver_card_file.go:1031-1053", "internal/card/driver_card_file.go:1112-1119", "internal/card/driver_card_file.go:1149-1156"]}
{"id": "C70", "title": "An anonymised file is still a file", "statement": "The anonymised form of an accepted places, vehicles-used or identification file can be serialised, has the size of the records it held, is accepted by the parser again, and anonymises to the same message.", "quantifier": "all accepted files of these kinds", "why_tests_cant": "Only unusual nations and card numbers break it; all other bytes must be covered too.", "anchors": ["internal/card/places.go:AnonymizePlaces", "internal/card/places_g2.go:AnonymizePlacesG2", "internal/card/vehicles_used.go:AnonymizeVehiclesUsed", "internal/card/identification.go:AnonymizeIdentification"]}
{"id": "C71", "title": "Anonymising records twice equals once", "statement": "Anonymising an already anonymised places or vehicles-used message gives the same message, including its regenerated raw bytes.", "quantifier": "all messages, parsed or built by hand", "why_tests_cant": "All contents and all preserved bytes.", "anchors": ["internal/card/places.go:AnonymizePlaces", "internal/card/vehicles_used.go:AnonymizeVehiclesUsed", "internal/dd/card_vehicle_record.go:AnonymizeCardVehicleRecord"]}
{"id": "C72", "title": "Anonymised activity changes keep their order and no times", "statement": "Days whose changes differ only in time become equal, and the new times of change increase in the order of the changes.", "quantifier": "all lists of activity changes", "why_tests_cant": "Order is lost only on days with many changes.", "anchors": ["internal/dd/activity_change_info.go:AnonymizeActivityChangeInfo"]}
{"id": "C73", "title": "Decoded fields are the documented parts of a record", "statement": "When a record is the concatenation of its documented parts in the documented order, each decoded field is the value of its own part: numbers big-endian, times zero-or-seconds, codes by their annotation, texts by their bytes. Application_Identification_V2 and the control card number of Control_Activity_Data do not follow the documented layout.", "quantifier": "all contents of every part, all character maps", "why_tests_cant": "Round-trip and golden tests pass when two fields of equal size are exchanged in reader and writer alike.", "anchors": ["internal/dd/card_vehicle_record.go:UnmarshalCardVehicleRecord", "internal/dd/place_record.go:UnmarshalPlaceRecord", "internal/card/application_identification_g2.go", "internal/card/application_identification_v2.go:unmarshalApplicationIdentificationV2", "internal/card/control_activity.go:unmarshalControlActivityData"]}
{"id": "C74", "title": "Card numbers of every card type are decoded", "statement": "A full card number whose type byte is a documented card type is decoded. The code accepts exactly driver, workshop and company cards among them; control cards are rejected.", "quantifier": "all type bytes, states and numbers", "why_tests_cant": "Only files that name a control card show it.", "anchors": ["internal/dd/full_card_number.go:UnmarshalFullCardNumber"]}
{"id": "C75", "title": "The issuing state of a card number is the one the byte stands for", "statement": "The decoded issuing member state of a full card number is the nation whose protocol code the byte is. The code uses the byte as enumeration number; of all nations only code 56 is decoded to itself.", "quantifier": "all card numbers and all nation codes", "why_tests_cant": "The writer casts back, so round trips succeed for every wrong state.", "anchors": ["internal/dd/full_card_number.go:UnmarshalFullCardNumber"]}
{"id": "C76", "title": "A first-generation overview is decoded part by part", "statement": "When an overview is the concatenation of its documented parts, each decoded field is its own part, and every lock and control record is decoded in order.", "quantifier": "all contents, any number of locks and controls", "why_tests_cant": "Numbers of locks and controls and all contents.", "anchors": ["internal/vu/overview_gen1.go:unmarshalOverviewGen1"]}
{"id": "C77", "title": "Overviews of controlled vehicles are accepted", "statement": "A well-formed overview that lists a control made with a control card is accepted. It never is.", "quantifier": "all overviews with at least one such control", "why_tests_cant": "Depends on a card type in one of arbitrarily many records.", "anchors": ["internal/vu/overview_gen1.go:unmarshalOverviewGen1", "internal/dd/full_card_number.go:UnmarshalFullCardNumber"]}
{"id": "C78", "title": "The card slots of an overview are decoded", "statement": "The decoded driver and co-driver slot values are the ones annotated with the two halves of the status byte. The code uses the halves as enumeration numbers, which are two too small for every documented value.", "quantifier": "all overviews and all documented slot values", "why_tests_cant": "Needs every slot value against the annotations.", "anchors": ["internal/vu/overview_gen1.go:unmarshalOverviewGen1"]}
{"id": "C79", "title": "Full card numbers survive reading and writing", "statement": "Every accepted full card number (equipment type, issuing state, sixteen characters of number) is written back byte for byte. The code writes zeros over the replacement and renewal index of driver cards.", "quantifier": "all card numbers, with and without a generation byte", "why_tests_cant": "Needs every card kind and every number; a test that compares decoded messages never sees the lost characters.", "anchors": ["internal/dd/full_card_number.go:AppendFullCardNumber", "internal/dd/full_card_number_and_generation.go:AppendFullCardNumberAndGeneration"]}
{"id": "C80", "title": "Card insertion records of a vehicle unit survive reading and writing", "statement": "Every accepted first-generation insertion and withdrawal record is written back byte for byte, and refused only if the previous vehicle's nation is undocumented. What is written instead is read and written stably.", "quantifier": "all 129-byte records, all character maps", "why_tests_cant": "Seven independent conditions decide about the round trip.", "anchors": ["internal/dd/vu_card_iw_record.go:UnmarshalVuCardIWRecord", "internal/dd/vu_card_iw_record.go:AppendVuCardIWRecord"]}
{"id": "C81", "title": "First-generation overviews survive reading and writing", "statement": "Every accepted overview of a first-generation vehicle unit, with any number of company locks and control activities, is written back byte for byte, and refused only if the vehicle's nation is undocumented. The slot byte survives only if both slots are empty.", "quantifier": "all overviews with any number of records, all character maps", "why_tests_cant": "The number of records is unbounded and every record can break the round trip on its own.", "anchors": ["internal/vu/overview_gen1.go:unmarshalOverviewGen1", "internal/vu/overview_gen1.go:appendOverviewGen1"]}
{"id": "C82", "title": "Signatures are accepted behind signed files only", "statement": "A signature record behind ICC, IC, Card_Download or a certificate makes UnmarshalFile return an error; behind every other file of an accepted driver card it is accepted.", "quantifier": "all accepted driver card files, all records in them and all signature values", "why_tests_cant": "Quantifies over every file and both generations; sample downloads contain only legal signatures.", "anchors": ["internal/card/driver_card_file.go:unmarshalDriverCardFile"]}
{"id": "C83", "title": "A day of a first-generation vehicle unit is decoded as documented", "statement": "Date, odometer, every card insertion, activity change, place and specific condition and the signature of an accepted activities transfer are the documented parts of its bytes, with any number of records of each kind.", "quantifier": "all accepted activities transfers with any number of records, all character maps", "why_tests_cant": "Record counts are unbounded; a shifted offset shows only for particular record mixes.", "anchors": ["internal/vu/activities_gen1.go:unmarshalActivitiesGen1", "internal/dd/vu_card_iw_record.go:UnmarshalVuCardIWRecord", "internal/dd/activity_change_info.go:UnmarshalActivityChangeInfo"]}
{"id": "C84", "title": "Every well-framed day of a first-generation vehicle unit is accepted", "statement": "An activities transfer whose counts match its records is accepted whatever the records contain. The code rejects the whole day if one inserted card is a control card, or one place has an unknown entry type or country.", "quantifier": "all well-framed activities transfers", "why_tests_cant": "Sample files contain no control card insertions and only known countries.", "anchors": ["internal/vu/activities_gen1.go:unmarshalActivitiesGen1", "internal/dd/full_card_number.go:UnmarshalFullCardNumber"]}
{"id": "C85", "title": "The exported day reader reads first-generation days as the decoder does", "statement": "UnmarshalVuActivities for generation 1 accepts exactly the days with one documented layout and decodes every part of them; the full statement, that this is what unmarshalActivitiesGen1 reads, is false: the counts have other sizes, and a day with a card insertion is never accepted.", "quantifier": "all byte strings, all offsets, any number of records of each kind", "why_tests_cant": "The reader has no tests or callers; the set of accepted inputs is infinite and exact acceptance cannot be sampled.", "anchors": ["internal/vu/activities.go:UnmarshalVuActivities", "internal/vu/activities.go:unmarshalVuActivitiesGen1"]}
{"id": "C86", "title": "The exported vehicle unit readers return errors instead of panicking", "statement": "For bytes they cannot use, UnmarshalVuActivities, UnmarshalVuDetailedSpeed and UnmarshalVuTechnicalData return an error. This is false; the inputs on which each of them panics are characterised exactly.", "quantifier": "all byte strings, offsets and generations", "why_tests_cant": "Truncations at each of unboundedly many record positions; exactness needs the converse as well.", "anchors": ["internal/vu/activities.go:UnmarshalVuActivities", "internal/vu/detailed_speed.go:UnmarshalVuDetailedSpeed", "internal/vu/technical_data.go:UnmarshalVuTechnicalData", "internal/vu/binary_parsing.go"]}
{"id": "C87", "title": "The exported day reader accepts and decodes second-generation days by one layout", "statement": "UnmarshalVuActivities for generation 2 accepts exactly the byte strings made of the documented record arrays with no card insertions, no readable border crossings or loads, and one signature of 1 to 65530 bytes; each array is decoded record by record, and the version is 2 exactly if a header of border crossings is present.", "quantifier": "all byte strings, all offsets, any number of records in each array", "why_tests_cant": "Unbounded record counts and the 64 KiB limit of the scanner; that no insertion is ever read is a statement about all inputs.", "anchors": ["internal/vu/activities.go:unmarshalVuActivitiesGen2", "internal/vu/activities.go:parseSignatureRecordArray", "internal/dd/full_card_number_and_generation.go"]}
{"id": "C88", "title": "No announced record of a second-generation day is dropped silently", "statement": "An accepted second-generation day holds as many positions, border crossings and loads as its arrays announce. This is false before short endings; for positions it holds whenever 14 bytes follow them.", "quantifier": "all accepted second-generation days", "why_tests_cant": "The loss happens only for one exact number of following bytes.", "anchors": ["internal/vu/activities.go:parseVuGNSSADRecordArray", "internal/vu/activities.go:parseVuBorderCrossingRecordArray", "internal/vu/activities.go:parseVuLoadUnloadRecordArray"]}
{"id": "C89", "title": "A driver card put together by a program survives writing and reading", "statement": "A driver card message whose fields hold values the wire format can carry, built without any preserved bytes, is written without error; reading the result gives a driver card with the same contents in every field the writer writes and nothing else, signatures becoming 128 zero bytes. It is false for names outside ASCII, workshop numbers ending in two digits, rests from midnight, activity files without days and second-generation member state certificates.", "quantifier": "all driver card messages, any number of records in each file", "why_tests_cant": "The repository's tests only write what was parsed from real cards, so the raw bytes hide what the encoder itself does; messages built field by field are an unbounded space.", "anchors": ["internal/card/driver_card_file.go:MarshalDriverCardFile", "marshal.go:MarshalFile", "unmarshal.go:UnmarshalFile", "internal/dd/string_value.go:AppendStringValue", "internal/card/activity.go:appendDriverActivity"]}
{"id": "C90", "title": "Accepted first-generation overviews and days have exactly the documented frame", "statement": "The readers of first-generation overviews and days accept a value exactly when it consists of the documented parts, with each counter equal to the number of records that follow, a 128-byte signature and nothing after it, and the card types and place codes it holds are ones the library knows.", "quantifier": "all byte strings", "why_tests_cant": "The tests read well-formed transfers only; that every other byte string is refused, and none of the well-formed ones, is a statement about all inputs.", "anchors": ["internal/vu/overview_gen1.go:unmarshalOverviewGen1", "internal/vu/activities_gen1.go:unmarshalActivitiesGen1"]}
{"id": "C91", "title": "Exactly the well-framed downloads are accepted", "statement": "A byte string is read as a first-generation vehicle unit download exactly when it is a non-empty sequence of transfers with TREP 01 to 05 whose values have their documented frames; as one of the second generation exactly when it is a sequence of overviews and detailed speeds (and interface versions in version 2) made of the right number of record arrays, whatever these contain.", "quantifier": "all byte strings", "why_tests_cant": "Both directions quantify over all downloads, with any number of transfers and records.", "anchors": ["unmarshal.go:UnmarshalFile", "internal/vu/vehicle_unit_file.go:UnmarshalVehicleUnitFile", "internal/vu/raw_vehicle_unit_file.go:unmarshalRawVehicleUnitFile"]}
{"id": "C92", "title": "Exactly the readable dumps are read as driver cards", "statement": "A byte string is read as a driver card exactly when it is a sequence of records of at most 65530 bytes, the first of them ICC, all of files of a driver card, with signatures only directly behind the data they belong to and behind files that carry one, and the contents of each file meet the conditions on lengths, enumerations, counters, ring structure and certificate encoding listed for it; nothing else matters, in particular no code page.", "quantifier": "all byte strings, all code pages", "why_tests_cant": "Tests read a handful of real cards; both directions speak about every byte string, with any number and order of files.", "anchors": ["unmarshal.go:UnmarshalFile", "internal/card/driver_card_file.go:unmarshalDriverCardFile", "internal/card/infer.go:InferFileType"]}
{"id": "C93", "title": "The form of a card number is decided by its last two bytes", "statement": "EF Identification is read with a driver's number (14 characters, replacement index, renewal index) and card type driver exactly when the two index bytes are decimal digits, and otherwise with an owner's number (13 characters and three indexes) and card type workshop; in both cases every part is its own documented slice. Indexes run 0-9 and then A-Z, so a driver card replaced ten times is reported as a workshop card.", "quantifier": "all contents of the file, all character maps", "why_tests_cant": "The sample cards all have digit indexes; the claim ranges over all pairs of index bytes and all numbers.", "anchors": ["internal/card/identification.go:unmarshalIdentification"]}
{"id": "C94", "title": "The certificate fetch tool recovers exactly what the library verifies", "statement": "The tool that builds the certificate cache recovers the content of a first-generation certificate exactly when it has 194 bytes and a good signature under the root key, and the library accepts a certificate under that root exactly when the tool recovers it and the certificate names the root as its authority, with the same holder and end of validity. The tool itself does not look at the named authority.", "quantifier": "all certificates, all root keys, all hash functions", "why_tests_cant": "Needs forged signatures and arbitrary keys; tests have a few genuine certificates.", "anchors": ["tools/cmd/fetch-certs/main.go:recoverGen1Certificate", "tools/cmd/fetch-certs/main.go:extractGen1CHRAndEOV", "tools/cmd/fetch-certs/main.go:extractERCA"]}
{"id": "C95", "title": "Index references of second-generation certificates agree with the library", "statement": "For every second-generation certificate the library can read, the authority and holder references the tool writes into the index are the ones the library finds. The tool also lists certificates the library cannot read.", "quantifier": "all byte strings", "why_tests_cant": "The claim compares two independent decoders over every certificate encoding.", "anchors": ["tools/cmd/fetch-certs/main.go:extractGen2CAR", "tools/cmd/fetch-certs/main.go:extractGen2CHR"]}
{"id": "C96", "title": "Concurrent downloads neither lose nor duplicate certificates", "statement": "However the download workers interleave, each kept certificate gets exactly one entry in the index; a file written by one worker holds its certificate; a file shared by several holds one of them if they have the same size. With different sizes it can hold a mixture.", "quantifier": "all sets of certificates, all interleavings of the workers", "why_tests_cant": "Interleavings cannot be enumerated or forced by tests.", "anchors": ["tools/cmd/fetch-certs/main.go:indexAndDownloadGen1Certificates", "tools/cmd/fetch-certs/main.go:indexAndDownloadGen2Certificates"]}
{"id": "C97", "title": "The order of the index is a weak order and reproducible up to ties", "statement": "The comparison the index is sorted with is a strict weak order on country and expiry, so sorting is well defined; if no two entries tie, the index is the same for every interleaving of the workers. With ties it is not.", "quantifier": "all entries, all interleavings, all interpretations of date strings", "why_tests_cant": "A comparison that is not an order misbehaves only for particular triples; scheduling cannot be tested exhaustively.", "anchors": ["tools/cmd/fetch-certs/main.go:sortCertificates"]}
{"id": "C98", "title": "Downloaded certificates stay in their directory", "statement": "A certificate with known holder is saved as g1/<holder>.bin or g2/<holder>.bin with the holder in decimal, and one without as its name on the web site plus .bin in that directory. A name with slashes leads out of the directory.", "quantifier": "all certificates, all tables of the web site", "why_tests_cant": "Depends on every possible link on the web site.", "anchors": ["tools/cmd/fetch-certs/main.go:indexAndDownloadGen1Certificates", "tools/cmd/fetch-certs/main.go:indexAndDownloadGen2Certificates", "tools/cmd/fetch-certs/main.go:extractCertificateName"]}
{"id": "C99", "title": "The library finds what the tool indexed", "statement": "With the index the tool writes, the library's client asked for a listed holder reads a certificate the tool saved for that holder, which under the root names this holder if its authority is the root; asked for an unlisted reference it fails.", "quantifier": "all sets of certificates, all interleavings, all networks that do not change", "why_tests_cant": "Joins two programs over all certificates and orders; no test runs both.", "anchors": ["tools/cmd/fetch-certs/main.go:indexAndDownloadGen1Certificates", "tools/cmd/fetch-certs/main.go:indexAndDownloadGen2Certificates", "tools/cmd/fetch-certs/main.go:sortCertificates", "tools/cmd/fetch-certs/main.go:extractGen2CHR"]}
{"id": "C100", "title": "Dates in the index", "statement": "A date of the web site gets into the index exactly if it names a day of the Gregorian calendar as DD/MM/YYYY or YYYY-MM-DD, as midnight UTC of that day; an end of validity in a certificate is shown as the UTC time that many seconds after 1 January 1970. Zero is shown as the year 1.", "quantifier": "all texts, all 32-bit times", "why_tests_cant": "All calendar days and all malformed dates; tests sample a few.", "anchors": ["tools/cmd/fetch-certs/main.go:parseDateString", "tools/cmd/fetch-certs/main.go:extractGen1CHRAndEOV"]}
{"id": "C101", "title": "What is taken from the table of the web site", "statement": "The tool asks for exactly one certificate per table row of at least three cells with a download link; the address is the site's followed by a marked link of an a element in the row, the country the first cell that can be one and the expiry the last cell that looks like a date. An absolute link is not recognised.", "quantifier": "all documents", "why_tests_cant": "Holds for trees of any shape and depth.", "anchors": ["tools/cmd/fetch-certs/main.go:parseCertificateTable", "tools/cmd/fetch-certs/main.go:parseTableRow", "tools/cmd/fetch-certs/main.go:findDownloadLink", "tools/cmd/fetch-certs/main.go:isDateString"]}
{"id": "C102", "title": "What the parse command prints", "statement": "The parse command prints one text per file, in the order given, for exactly the files in front of the first one that cannot be read or parsed, and ends the way that file does; it succeeds exactly if there is at least one file and all of them can be read and parsed. Files behind a bad one are not looked at.", "quantifier": "all lists of files, all file contents, all file systems that do not change", "why_tests_cant": "Lists of any length with a bad file at any place.", "anchors": ["cmd/tachograph/main.go:newParseCommand", "unmarshal.go:UnmarshalFile"]}
{"id": "C103", "title": "A message is not much larger than its file", "statement": "The number of entries of a parsed message (records, transfers, days, activity changes) is bounded by the number of bytes of the file. For the activity ring of a card this is false: a daily record may claim more bytes than the ring has, and then the ring is read round and round, so a file of 55 bytes gives more than 1700 activity changes; there a day has at most 32761 changes and a card at most 365 days per ring, and no more days than the file has bytes.", "quantifier": "all byte strings, all code pages", "why_tests_cant": "A bound over all inputs; the amplification needs a ring that no well-formed card has.", "anchors": ["unmarshal.go:UnmarshalFile", "internal/card/activity.go:Next", "internal/card/rawcardfile.go:unmarshalRawCardFileRecord"]}
{"id": "C104", "title": "A parsed file does not change when the caller reuses the input buffer", "statement": "After UnmarshalFile has returned, overwriting the bytes it was given does not change the message. True for cards, whose records are copied. For vehicle unit downloads only the decoded values stay; every raw_data field, certificate, signature and region shows the new content of the buffer, so the message is unchanged exactly if the values of all transfers in it are unchanged (the interface version and all overviews but the last are not in it).", "quantifier": "all byte strings, all contents of the buffer afterwards, all code pages", "why_tests_cant": "Tests parse a buffer once and never write to it; which fields are views is not visible in any single result.", "anchors": ["unmarshal.go:UnmarshalFile", "internal/vu/raw_vehicle_unit_file.go:unmarshalRawVehicleUnitFile", "internal/card/rawcardfile.go:unmarshalRawCardFileRecord", "internal/vu/overview_gen1.go:unmarshalOverviewGen1"]}
{"id": "C105", "title": "A certificate source that keeps its certificates gives the same verdicts", "statement": "Several goroutines verify different driver cards with one CertificateResolver that answers a reference with the same certificate object every time. Verification writes the recovered key into that object. In every order of their steps, each goroutine ends with the same result and the same card as when it verifies its card alone with a resolver that parses the certificate anew. Holds for certificates as parsed and for certificates with a complete key; with half a key a goroutine can combine the new modulus with the old exponent.", "quantifier": "all resolvers, all lists of cards, all interleavings of single reads and writes, all hash functions", "why_tests_cant": "The wrong reads need one particular interleaving between six setters; tests use one goroutine and a resolver without memory.", "anchors": ["internal/card/driver_card_file.go:verifyGen1Certificates", "internal/security/rsa_verify.go:verifyRsaCertificate", "internal/security/rsa_verify.go:VerifyRsaCertificateWithCA", "verify.go:VerifyFile", "cert.go:CertificateResolver"]}
{"id": "C106", "title": "Genuine cards verify", "statement": "A first generation certificate issued as Appendix 11 says (message recovery with the private key of the authority, CSM_017 and CSM_018) is parsed and verifies under the public key of the authority; afterwards it has the holder, end of validity and key that were certified. A downloaded driver card whose certificates were issued this way verifies with success, for each generation present, when the source has the certificates of the issuing authorities; with the default source when they are at the addresses in the index.", "quantifier": "all 1024-bit RSA key pairs, all certificate contents, all ECDSA and hash functions, all card downloads and sources", "why_tests_cant": "Tests verify a few recorded certificates; that no genuine certificate is refused needs the number theory of RSA for every key and content.", "anchors": ["internal/security/rsa_verify.go:verifyRsaCertificate", "internal/security/rsa_certificate.go:UnmarshalRsaCertificate", "internal/card/driver_card_file.go:verifyGen1Certificates", "internal/card/driver_card_file.go:verifyGen2Certificates", "verify.go:VerifyFile"]}
{"id": "C107", "title": "Every second generation certificate that the regulation allows is read and verified", "statement": "A certificate with the TLV structure of Appendix 11, Table 4, for a key on any of the six curves and signed by an authority on any of the six, has an accepted length, is parsed with exactly the certified content, and verifies under the key in the authority's certificate with the hash of the authority's curve.", "quantifier": "all contents, all pairs of curves, all signatures valid for the given ECDSA and hash functions", "why_tests_cant": "The 36 combinations of curves give different length encodings; tests have certificates of one curve.", "anchors": ["internal/security/ecc_certificate.go:UnmarshalEccCertificate", "internal/security/ecc_verify.go:VerifyEccCertificateWithCA", "internal/security/ecc_verify.go:parseCurveOID"]}
{"id": "C108", "title": "Reading does not depend on the width of int", "statement": "With Go's int of 64 bits no offset or size computed while reading a file wraps around: the result is that of exact integers. With int of 32 bits (GOARCH 386, arm) UnmarshalFile gives the same result as with 64 bits. The latter holds for every file that the 64-bit program accepts, and for every file in which no four consecutive bytes announce 2^30 bytes or more; it is false in general: a 12-byte file is refused with 64 bits and panics with 32, and an overview of 131 kB is accepted with 32 bits only, because an array reaches back to earlier data.", "quantifier": "all byte strings (below 2^62 bytes, and 10^9 for 32 bits), all character maps", "why_tests_cant": "Tests run on one architecture and none of their sizes is near the limit.", "anchors": ["internal/vu/raw_vehicle_unit_file.go:sizeOfRecordArray", "internal/vu/raw_vehicle_unit_file.go:unmarshalRawVehicleUnitFile", "internal/vu/overview_gen2_v1.go:unmarshalOverviewGen2V1", "unmarshal.go:UnmarshalFile"]}
{"id": "C109", "title": "Writing a message never crashes the process", "statement": "For every message, also one put together by a program (parts absent, nil elements in lists, raw data of any length, enumeration numbers and values of any size), MarshalFile returns bytes or an error; it never panics. This is false for exactly one kind of message: a driver card whose second-generation specific conditions carry one single byte of raw data, if no file written earlier is refused.", "quantifier": "all messages, with nil among the elements of any list", "why_tests_cant": "The messages a program can put together are unboundedly many; the fuzzers of the project start from parsed files, which never have such parts.", "anchors": ["marshal.go:MarshalFile", "internal/card/driver_card_file.go:appendDriverCard", "internal/card/specific_conditions_g2.go:appendCardSpecificConditionsG2"]}
{"id": "C110", "title": "A nil element of a list is refused when writing", "statement": "If a list of a message has a nil element then MarshalFile returns an error. This holds for vehicles, specific conditions, days of an activity file without raw bytes and changes of valid days. It is false otherwise: nil events, faults, GNSS places and vehicle units are left out, a nil place is written as a place of zero bytes, a nil record of a raw card file as an empty record with tag 0, and nil days beside raw bytes leave no trace.", "quantifier": "all messages, with nil among the elements of any list", "why_tests_cant": "No test of the project has nil elements, and each list treats them in its own way.", "anchors": ["marshal.go:MarshalFile", "internal/dd/specific_condition_record.go:AppendSpecificConditionRecord", "internal/card/gnss_places.go:appendGNSSAccumulatedDrivingRecord"]}
{"id": "C111", "title": "Verifying a file never crashes the process", "statement": "With a source of certificates that does not panic, VerifyFile returns nil or an error; it never panics. It panics exactly if the file is a driver card that verifies without its second-generation application, the source has the certificate of the authority its signing certificate names, and ecdsa.Verify panics on the question that the two certificates make; ecdsa.Verify does so for points that are not on their brainpool curve, and such an authority certificate is accepted.", "quantifier": "all files, all sources of certificates, all hash and ECDSA functions", "why_tests_cant": "Tests verify cards with genuine authorities; the crash takes an authority certificate nobody signed, which verification accepts (C55).", "anchors": ["verify.go:VerifyFile", "internal/card/driver_card_file.go:VerifyDriverCardFile", "internal/security/ecc_verify.go:VerifyEccCertificateWithCA"]}
{"id": "C112", "title": "Anonymising a list never crashes the process", "statement": "For every message, also with nil among the records, AnonymizePlaces, AnonymizePlacesG2 and AnonymizeVehiclesUsed return a message. This holds for vehicles, where a nil record is kept and costs the regenerated raw data; it is false for places of both generations, which crash exactly if a record is nil.", "quantifier": "all messages, with nil among the records", "why_tests_cant": "No test of the project has nil records, and the helpers that anonymise one record accept nil, so only the loops around them crash.", "anchors": ["internal/card/places.go:AnonymizePlaces", "internal/card/places_g2.go:AnonymizePlacesG2", "internal/card/vehicles_used.go:AnonymizeVehiclesUsed"]}
{"id": "C113", "title": "Decoded numbers fit their fields", "statement": "Every number in the message of an accepted file lies in the range that the bytes it was read from can hold: times are whole seconds from 1 to 2^32-1, odometers below 2^24, coordinates signed 24-bit numbers, counters of four decimal digits, pointers and counts of one or two bytes, enumerations at most the greatest declared number. So no conversion to int32 wraps around, and nothing but a coordinate is negative.", "quantifier": "all byte strings that UnmarshalFile accepts, all character maps; every number of the message", "why_tests_cant": "The conversions int32(x) are spread over all decoders; tests see the values of a few files only.", "anchors": ["unmarshal.go:UnmarshalFile", "internal/dd/geo_coordinates.go:readInt24", "internal/dd/bcd_string.go:UnmarshalBcdString", "internal/card/activity.go:parseSingleActivityDailyRecord", "internal/vu/overview_gen1.go:unmarshalOverviewGen1"]}
{"id": "C114", "title": "Two cycles of reading and writing normalise a driver card", "statement": "If a driver card file whose event and fault files consist of whole 24-byte records is read and can be written, then what is written can be read and written again, and the second output is final: it is read again and written as the very same bytes. (One cycle is not enough: the first output may still change, through card numbers that do not fit their field and through scanner buffer reuse.)", "quantifier": "all accepted driver card dumps with any files, repeated files and signatures; all character maps", "why_tests_cant": "Finality of the second output is a statement about every composition of three parses and two writes; the round-trip tests compare one cycle on a few fixture files.", "anchors": ["internal/card/driver_card_file.go:appendDriverCard", "internal/card/driver_card_file.go:unmarshalDriverCardFile", "internal/card/events.go:unmarshalEventsData"]}
{"id": "C115", "title": "A vehicle unit message does not depend on the order of transfers of different kinds", "statement": "Two accepted vehicle unit downloads give the same message if and only if they have the same transfers of every kind in the same order, except that of the overviews only the last counts, and of the interface versions only the fact that the download is one of version 2. Whether a download is accepted does not depend on the order of its transfers at all.", "quantifier": "all pairs of accepted downloads of any generation and length, all permutations, all character maps", "why_tests_cant": "It compares every pair of downloads, in every order; the tests parse single files.", "anchors": ["internal/vu/vehicle_unit_file.go:unmarshalVehicleUnitFile", "internal/vu/vehicle_unit_file.go:unmarshalVehicleUnitFileGen1", "internal/vu/vehicle_unit_file.go:hasGen2V2Transfers"]}
{"id": "C116", "title": "Text is read in the character set it names", "statement": "A text of a code page and bytes is always read: as no text if the code page is 255 or all bytes are 0 or 255, otherwise as the characters that the character set of the code page gives for its bytes, without the blanks, zeros and replacement characters at either end. Code pages 2, 3, 5, 7, 9, 13, 15, 16, 80 and 85 have character sets of their own, all others are read as ISO 8859-1. The encoding field names the code page. Texts without a code page are ASCII.", "quantifier": "all code pages, all texts of any length, all character maps to Unicode scalar values", "why_tests_cant": "The tests decode a few Latin-1 and one or two other texts; the claim is for every byte string, every code page and every way of mixing blanks and text.", "anchors": ["internal/dd/string_value.go:decodeWithCodePage", "internal/dd/string_value.go:getEncodingFromCodePage", "internal/dd/string_value.go:trimSpaceAndZeroBytes"]}
{"id": "C117", "title": "Which dumps of driver cards give the same message", "statement": "Two accepted dumps of driver cards give the same message if and only if, for every field of the message, both or neither have a record that fills it, and the last such records have the same signature and agree in the bytes that the field keeps: all bytes of most files, the first bytes of those of fixed size, where two unknown nations count as the same, and of events, faults and vehicle units the bytes that the shared scanner buffer shows in the end.", "quantifier": "all pairs of accepted dumps of any length, all character maps", "why_tests_cant": "It compares every pair of dumps; that different files give different messages cannot be seen from parsing single files.", "anchors": ["internal/card/driver_card_file.go:UnmarshalDriverCardFile", "internal/card/identification.go:unmarshalIdentification", "internal/card/events.go:unmarshalEventsData", "internal/card/vehicle_units_used.go:unmarshalVehicleUnitsUsed"]}
{"id": "C118", "title": "Anonymising leaves the original alone", "statement": "Anonymising places of either generation, vehicles used or an identification changes no message that existed before, whatever messages the original shares among its records or with others: the original and every other message keep their contents, and the result has the contents that the anonymiser prescribes.", "quantifier": "all memories, including records that share times, counters or whole sub-messages, and all files in them with lists of any length", "why_tests_cant": "The functions set fields of messages in several passes; whether one of them is a message of the original depends on which pointers were copied before, and a test compares one original that it happens to keep.", "anchors": ["internal/card/places.go:AnonymizePlaces", "internal/card/places_g2.go:AnonymizePlacesG2", "internal/card/vehicles_used.go:AnonymizeVehiclesUsed", "internal/card/identification.go:AnonymizeIdentification"]}
{"id": "C119", "title": "What an anonymised file shares with the original", "statement": "An anonymised file has no message in common with the original, so that changing one later does not show in the other.", "quantifier": "all memories and all files in them with lists of any length, all later changes", "why_tests_cant": "Sharing does not show in any value; it needs a change of the one file after the other was made, at each message reached.", "anchors": ["internal/card/places.go:AnonymizePlaces", "internal/card/places_g2.go:AnonymizePlacesG2", "internal/card/vehicles_used.go:AnonymizeVehiclesUsed", "internal/dd/card_vehicle_record.go:AnonymizeCardVehicleRecord", "internal/dd/place_record.go:AnonymizePlaceRecord", "internal/card/identification.go:AnonymizeIdentification"]}
{"id": "C120", "title": "Files of a message are written in their size", "statement": "Every file of a driver card message is written in the size that it has on a card, or refused; a part that is missing is written as filler.", "quantifier": "all messages, with any parts missing, and lists of any length", "why_tests_cant": "Every part can be missing alone or together with others, and tests write messages that were read from cards, which are complete.", "anchors": ["internal/card/icc.go:appendIcc", "internal/card/icc.go:appendEmbedderIcAssemblerId", "internal/card/driving_licence.go:appendDrivingLicenceInfo", "internal/card/identification.go:appendCardIdentification", "internal/card/identification.go:appendDriverCardHolderIdentification", "internal/card/current_usage.go:appendCurrentUsage", "internal/card/control_activity.go:appendCardControlActivityData", "internal/card/specific_conditions_g2.go:appendCardSpecificConditionsG2", "internal/card/events.go:appendEventRecord"]}
{"id": "C121", "title": "Activities written from their days are complete", "statement": "When an activity file is written from its days, every day is in it with all its changes, in order, and nothing else is.", "quantifier": "all lists of days of any length, with any numbers of changes and any declared sizes", "why_tests_cant": "Days are written over one buffer one after the other; whether a day covers a part of its neighbour depends on the sizes of both, and tests write days as they were read.", "anchors": ["internal/card/activity.go:buildCyclicBufferFromRecords", "internal/card/activity.go:calculateRecordSize", "internal/card/activity.go:marshalRecordWithHeader", "internal/card/activity.go:appendDriverActivity"]}
{"id": "C122", "title": "The index of the certificate cache names files that are there", "statement": "Whenever the index of the certificate cache can be read, every file it names is there and holds the certificate of its entry.", "quantifier": "all earlier contents of the output directory, all answers of the web site, all orders of the workers, all failures of downloads and writes, and all points at which a run can be killed", "why_tests_cant": "The tool has no tests; it works on a directory and a web site, and whether the claim holds depends on the point at which a run stops.", "anchors": ["tools/cmd/fetch-certs/main.go:main", "tools/cmd/fetch-certs/main.go:createDirectoryStructure", "tools/cmd/fetch-certs/main.go:downloadAndSaveRootCertificate", "tools/cmd/fetch-certs/main.go:writeIndexFile"]}
{"id": "C123", "title": "Success of the tool means that all listed certificates were saved", "statement": "When filling the certificate cache ends without an error, every certificate that the tables of the web site list was saved and is in the index, and nothing else is.", "quantifier": "all tables and certificates, all orders of the workers, all failures of downloads and writes", "why_tests_cant": "Workers skip what they cannot download or save, each for itself; every combination of failures gives another index.", "anchors": ["tools/cmd/fetch-certs/main.go:main", "tools/cmd/fetch-certs/main.go:indexAndDownloadGen1Certificates", "tools/cmd/fetch-certs/main.go:indexAndDownloadGen2Certificates", "tools/cmd/fetch-certs/main.go:downloadERCA"]}
{"id": "C124", "title": "What is missing in a message is not made up when it is written", "statement": "A value that is missing in a message reads back, after writing, as missing, unknown or empty, or writing is refused; it never reads back as definite data, and nothing else is lost with it.", "quantifier": "all records with any of their values missing, whatever the others are", "why_tests_cant": "Tests write messages that were read from files, in which nothing is missing.", "anchors": ["internal/dd/time_real.go:AppendTimeReal", "internal/dd/date.go:AppendDate", "internal/dd/geo_coordinates.go:AppendGeoCoordinates", "internal/dd/vehicle_registration.go:AppendVehicleRegistration", "internal/dd/full_card_number.go:AppendFullCardNumber", "internal/card/events.go:appendEventRecord", "marshal.go:MarshalFile"]}
{"id": "C125", "title": "The files of a card are read independently of each other", "statement": "What stands in one file of a card does not change how the other files are read: other readable bytes in one file leave every other field as it was, and the structure version that a card declares is handed to the readers of the later files but makes no difference to the message or to the error.", "quantifier": "all accepted dumps, all fields and all other contents of the files of that field; all raw files for the version", "why_tests_cant": "Tests compare a card with its own message; they do not vary one file and compare the rest, and there are cards of few versions.", "anchors": ["internal/card/driver_card_file.go:unmarshalDriverCardFile", "internal/dd/options.go:SetFromCardStructureVersion", "internal/card/application_identification.go:unmarshalApplicationIdentification"]}
{"id": "C126", "title": "A file holds as many records as the card declares", "statement": "If the application identification of a card declares a number of events, faults, vehicles, places, positions, conditions or vehicle units, or the length of the activity ring, then the file of that application in the message has that many.", "quantifier": "all accepted dumps and all fields of the message", "why_tests_cant": "Real cards have files of the declared size; no test has a card that declares another number.", "anchors": ["internal/card/application_identification.go:unmarshalApplicationIdentification", "internal/card/places.go:parseCircularPlaceRecordsGen1", "internal/card/events.go:unmarshalEventsData", "internal/card/gnss_places.go:parseGNSSAccumulatedDrivingRecords", "internal/card/driver_card_file.go:unmarshalDriverCardFile"]}
{"id": "C127", "title": "Writing and reading a card does not change the verdict of its verification", "statement": "If a dump is read as a driver card, written, and read again, then verifying the card gives the same verdict before and after.", "quantifier": "all accepted dumps that can be written and read again, all sources of certificates and all primitives", "why_tests_cant": "No test verifies a card that was written; cards differ in which files of which generation they have.", "anchors": ["verify.go:VerifyFile", "marshal.go:MarshalFile", "unmarshal.go:UnmarshalFile", "internal/card/driver_card_file.go:VerifyDriverCardFile", "internal/card/driver_card_file.go:appendDriverCard"]}
{"id": "C128", "title": "Files put together are read together", "statement": "Two dumps of driver cards in a row are read as one card in which of every file the second counts; two downloads of vehicle units of the same generation in a row are read as one download with the transfers of both, and downloads of different generations in a row are refused.", "quantifier": "all pairs of accepted inputs", "why_tests_cant": "The result is about every pair of files; tests read files one by one.", "anchors": ["unmarshal.go:UnmarshalFile", "internal/card/driver_card_file.go:unmarshalDriverCardFile", "internal/vu/vehicle_unit_file.go:unmarshalVehicleUnitFile"]}
{"id": "C129", "title": "Different cards are written as different bytes", "statement": "Two driver card messages are written as the same bytes only if the same bytes are written of each of their files: no content of one file can pass for another file.", "quantifier": "all pairs of driver card messages that are written, parsed or put together by a program", "why_tests_cant": "The statement is about all pairs of messages; tests compare a message with itself.", "anchors": ["marshal.go:MarshalFile", "internal/card/driver_card_file.go:appendDriverCard"]}
{"id": "C130", "title": "One card may be verified several times at the same time", "statement": "If several goroutines verify the same driver card message at the same time with the same source of certificates, each of them ends with the outcome that verifying the message once gives, and the message then shows what one verification leaves.", "quantifier": "all messages, sources, primitives, numbers of goroutines and interleavings of their steps", "why_tests_cant": "The outcome depends on the interleaving of writes to a shared certificate; tests verify in one goroutine.", "anchors": ["internal/card/driver_card_file.go:VerifyDriverCardFile", "internal/card/driver_card_file.go:verifyGen1Certificates", "internal/security/rsa_verify.go:verifyRsaCertificate", "internal/security/ecc_verify.go:VerifyEccCertificateWithCA"]}
{"id": "C131", "title": "Another source of certificates takes no success away", "statement": "A file that verifies with a chain of sources of certificates verifies with the same result if a further source is put into the chain.", "quantifier": "all chains of sources, all further sources, all files and primitives", "why_tests_cant": "Sources are arbitrary implementations of an interface; tests use the built-in ones.", "anchors": ["verify.go:VerifyFile", "internal/cert/chain.go:NewChainResolver", "internal/cert/chain.go:GetRsaCertificate", "internal/card/driver_card_file.go:VerifyDriverCardFile"]}
{"id": "C132", "title": "The trust anchor cannot be altered through certificates that were handed out", "statement": "Whatever a program does with the root certificates it gets from the default source, the European root key that later verifications use stays the same, and so do their verdicts.", "quantifier": "all sequences of requests, changes of the certificates handed out and verifications; all primitives and sources", "why_tests_cant": "Aliasing between a message and a package variable shows only after a program writes to memory it was handed; no test does.", "anchors": ["internal/cert/certcache/embed.go:Root", "internal/cert/root.go:Root", "internal/security/root_certificate.go:UnmarshalRootCertificate", "cert.go:DefaultCertificateResolver", "verify.go:VerifyFile"]}
{"id": "C133", "title": "A verification sends at most two requests, to addresses of the index", "statement": "Verifying a file with the default source sends at most one request per generation, only to the address the index has for the authority named in the card's certificate, none for certificates the library carries, none for files other than driver cards, and none for the second generation if the first does not verify.", "quantifier": "all files, indexes, carried certificates, primitives and networks, including networks that change their answers", "why_tests_cant": "Tests do not use the network; the claim is about every file and every behaviour of the network.", "anchors": ["verify.go:VerifyFile", "cert.go:DefaultCertificateResolver", "internal/cert/client.go:GetRsaCertificate", "internal/cert/client.go:GetEccCertificate", "internal/cert/chain.go:GetRsaCertificate", "internal/card/driver_card_file.go:VerifyDriverCardFile"]}
{"id": "C134", "title": "The work of a verification is bounded", "statement": "Verifying the first generation of a driver card with the default source computes at most two modular powers, each with a bounded number of products of bounded size, whatever the card and the network say.", "quantifier": "all accepted dumps, sources, networks and root keys", "why_tests_cant": "Only certificates made for the purpose cost more; the bound is about all of them.", "anchors": ["internal/security/rsa_verify.go:verifyRsaCertificate", "internal/card/driver_card_file.go:VerifyDriverCardFile", "internal/card/driver_card_file.go:verifyGen1Certificates", "internal/cert/chain.go:GetRootCertificate"]}
{"id": "C135", "title": "A card is written the same while it is verified", "statement": "Goroutines that write one card message while others verify it, with any sources of certificates, each end after a fixed number of their own steps with the bytes, or the error, of writing it before any verification; no interleaving makes a difference.", "quantifier": "all card messages, sets of writing and verifying goroutines, sources, and interleavings", "why_tests_cant": "A test runs a few of the interleavings; the claim is about each one.", "anchors": ["internal/card/driver_card_file.go:MarshalDriverCardFile", "internal/card/driver_card_file.go:appendDriverCard", "internal/card/driver_card_file.go:VerifyDriverCardFile"]}
{"id": "C136", "title": "An edit of one file stays in that file", "statement": "If two card messages agree in all elementary files but one, then what is written for them agrees in all bytes but the record of that file, writing the edited one fails only if writing that file does, and, if the contents fit into records, what is read back agrees in all other files; the edited card can be read if the other one can and the new content of the file can.", "quantifier": "all pairs of card messages that agree in all files but one, and all files", "why_tests_cant": "Tests edit some fields of some cards; the claim is about every edit of every file, whatever else the card has.", "anchors": ["internal/card/driver_card_file.go:MarshalDriverCardFile", "internal/card/driver_card_file.go:appendDriverCard", "internal/card/driver_card_file.go:unmarshalDriverCardFile"]}
{"id": "C137", "title": "A file keeps its kind when it is written and read again", "statement": "If a file message can be written and the bytes can be read, then the message that is read is of the same kind: driver card, vehicle unit or raw card.", "quantifier": "all file messages, read or put together by a program", "why_tests_cant": "Tests write messages that were read from samples; the kind is inferred from the bytes, so that it is a claim about all contents.", "anchors": ["marshal.go:MarshalFile", "unmarshal.go:UnmarshalFile", "internal/card/driver_card_file.go:appendDriverCard", "internal/card/rawcardfile.go:MarshalRawCardFile"]}
{"id": "C138", "title": "A download that ends early between two records is read as far as it goes", "statement": "If a file can be read, then every beginning of it that ends between two records (cards) or two transfers (vehicle units), and is not empty, can be read too, as a file of the same kind; of a card, every elementary file of which no record is missing is read as from the whole file.", "quantifier": "all files that can be read, and all places between two records", "why_tests_cant": "Tests read whole samples; the claim is about every place at which every download may have been broken off.", "anchors": ["unmarshal.go:UnmarshalFile", "internal/card/driver_card_file.go:unmarshalDriverCardFile", "internal/card/rawcardfile.go:UnmarshalRawCardFile"]}
{"id": "C139", "title": "Splitting a card file takes work linear in its length", "statement": "To split a card file into records, and the contents of its elementary files into theirs, every byte is copied at most eight times, the split functions are called at most four times per byte, and the buffers take a constant and a number of bytes proportional to the length of the file; one scanner never takes more than 126976 bytes.", "quantifier": "all byte strings, readable or not", "why_tests_cant": "Tests see the time that some samples take; whether moving and growing the buffer may add up to quadratic work depends on the lengths of all records.", "anchors": ["internal/card/rawcardfile.go:UnmarshalRawCardFile", "internal/card/rawcardfile.go:scanCardFile", "internal/card/events.go:splitCardEventRecord", "internal/card/faults.go:splitCardFaultRecord", "internal/card/gnss_places.go:splitGNSSAccumulatedDrivingRecord", "internal/card/vehicle_units_used.go:splitCardVehicleUnitRecord"]}
{"id": "C140", "title": "The certificate tool keeps to its limit of concurrent downloads and comes to its end", "statement": "At no time does the tool run more downloads at once than the flag -concurrency says; whatever the schedule, the goroutines do not wait for each other for ever, and when all have ended every row has been worked on completely.", "quantifier": "all limits, all tables of rows and all schedules", "why_tests_cant": "Tests run few schedules with the limit they were given; deadlocks and the number of simultaneous downloads are claims about all of them.", "anchors": ["tools/cmd/fetch-certs/main.go:indexAndDownloadGen1Certificates", "tools/cmd/fetch-certs/main.go:indexAndDownloadGen2Certificates", "tools/cmd/fetch-certs/main.go:main"]}
{"id": "C141", "title": "Leaving records out of a download makes no card pass", "statement": "If a driver-card download does not pass verification, then no download that results from it by leaving files out, and that the library accepts, passes either.", "quantifier": "all accepted downloads, all choices of files left out, all primitives and sources of certificates", "why_tests_cant": "The claim is about every subset of every download; tests try a few removals on samples that pass.", "anchors": ["internal/card/driver_card_file.go:VerifyDriverCardFile", "internal/card/driver_card_file.go:verifyGen1Certificates", "internal/card/driver_card_file.go:verifyGen2Certificates", "internal/card/driver_card_file.go:unmarshalDriverCardFile", "verify.go:VerifyFile"]}
{"id": "C142", "title": "A certificate serves only its own card and its own purpose", "statement": "If a card passes verification, then its certificates were made for a driver card (for the second generation: for the key with which a driver card signs), and their holder reference is the serial number of the chip that the card has in EF ICC.", "quantifier": "all accepted downloads, all primitives and sources of certificates", "why_tests_cant": "Tests verify genuine cards, whose certificates are their own; that no other certificate passes is a claim about all cards and all certificates.", "anchors": ["internal/card/driver_card_file.go:VerifyDriverCardFile", "internal/card/driver_card_file.go:verifyGen1Certificates", "internal/card/driver_card_file.go:verifyGen2Certificates", "internal/security/rsa_verify.go:VerifyRsaCertificateWithCA", "internal/security/ecc_verify.go:VerifyEccCertificateWithCA", "verify.go:VerifyFile"]}
{"id": "C143", "title": "A certificate has one form", "statement": "No certificate that passes can be given another form, with different bytes, that passes with the same authority, unless the authority signs again or a collision of the hash is found.", "quantifier": "all certificates, authorities and primitives", "why_tests_cant": "Tests alter certificates in a few places and see them fail; which of all other byte strings still pass needs an argument about every one of them.", "anchors": ["internal/security/rsa_verify.go:verifyRsaCertificate", "internal/security/ecc_verify.go:VerifyEccCertificateWithCA", "internal/security/rsa_certificate.go:UnmarshalRsaCertificate", "internal/security/ecc_certificate.go:UnmarshalEccCertificate"]}
{"id": "C144", "title": "The key that verified a card is that of the authority it names", "statement": "When the verification of a driver card passes, the authority whose key was used has the name that the certificate of the card gives for its signer, in the certificate that the source returned and in what was signed.", "quantifier": "all primitives, sources of certificates and card files", "why_tests_cant": "Tests use sources that return the right certificate; what happens when a source answers with a certificate of another name needs an argument about all sources.", "anchors": ["internal/security/rsa_verify.go:verifyRsaCertificate", "internal/security/ecc_verify.go:VerifyEccCertificateWithCA", "internal/card/driver_card_file.go:verifyGen1Certificates", "internal/card/driver_card_file.go:verifyGen2Certificates"]}
{"id": "C145", "title": "The days read from a card in use are the latest ones that fit on it", "statement": "After any number of days and activity changes that vehicle units stored on a card in the way the regulation prescribes, reading the activity file gives all days that are still on the card, in order and with their date, distance and changes, and these are the latest days that fit into the string.", "quantifier": "all sizes of the string, initial contents and sequences of days and changes", "why_tests_cant": "Tests read a few recorded rings; how the string looks depends on the whole life of the card, on the lengths of all days so far, and needs an invariant over all sequences of writes.", "anchors": ["internal/card/activity.go:unmarshalDriverActivityData", "internal/card/activity.go:parseActivityRecordsWithIterator"]}
{"id": "C146", "title": "The index of the newest record in a message is right", "statement": "After vehicle units stored any number of records in a file of the card that is filled in turn, the index in the message is that of the record stored last, and going back from it around the list gives the records stored before it in reverse order, each as decoded from the bytes that were stored.", "quantifier": "all numbers of places, initial contents and sequences of stored records", "why_tests_cant": "Tests compare a few recorded files; which record is where depends on how many were stored and how often the file went around, for any number of places.", "anchors": ["internal/card/places.go:unmarshalPlaces", "internal/card/places_g2.go:unmarshalPlacesG2", "internal/card/vehicles_used.go:unmarshalVehiclesUsed", "internal/card/vehicles_used_g2.go:unmarshalVehiclesUsedG2", "internal/card/gnss_places.go:unmarshalGnssPlaces", "internal/card/vehicle_units_used.go:unmarshalVehicleUnitsUsed", "internal/card/specific_conditions_g2.go:unmarshalSpecificConditionsG2"]}
{"id": "C147", "title": "Two downloads of one card agree and leave no gap", "statement": "If a card is downloaded, used further and downloaded again, then the messages agree on every day and record that is in both, the last day of the first download may only have got further changes, and as long as what was stored in between fits on the card no day is missing between the two messages.", "quantifier": "all sizes of the files, initial contents and sequences of use before and after the first download", "why_tests_cant": "Tests read single downloads; that two downloads of one card can be put together is a relation between two reads over all sequences of writes in between.", "anchors": ["internal/card/activity.go:unmarshalDriverActivityData", "internal/card/activity.go:parseActivityRecordsWithIterator", "internal/card/places.go:unmarshalPlaces", "internal/card/places_g2.go:unmarshalPlacesG2", "internal/card/vehicles_used.go:unmarshalVehiclesUsed", "internal/card/vehicles_used_g2.go:unmarshalVehiclesUsedG2", "internal/card/gnss_places.go:unmarshalGnssPlaces", "internal/card/specific_conditions_g2.go:unmarshalSpecificConditionsG2"]}
{"id": "C148", "title": "A card that was used as prescribed is read, and its message shows the latest days and places", "statement": "If the activity and place files of a downloaded driver card are as vehicle units leave them after any use that follows the regulation, and every other file of the download is readable, then the download is read as a driver card whose message shows the latest days that fit on the card and the latest places, under the application they were stored in.", "quantifier": "all downloads, orders of files, sizes, initial contents and sequences of use", "why_tests_cant": "Tests parse a few recorded cards; the claim goes from every possible sequence of writes through framing, dispatch and decoding to the message.", "anchors": ["unmarshal.go:UnmarshalFile", "internal/card/driver_card_file.go:unmarshalDriverCardFile", "internal/card/activity.go:unmarshalDriverActivityData", "internal/card/places.go:unmarshalPlaces", "internal/card/places_g2.go:unmarshalPlacesG2"]}
{"id": "C149", "title": "The days and changes in the message of a card in use are in order", "statement": "If vehicle units stored days with increasing dates, and within a day changes with non-decreasing times, then whenever the activity file is read, the days of the message have strictly increasing dates, so that no day occurs twice, and the changes of each day are in the order of their times.", "quantifier": "all sizes of the string, initial contents and sequences of days and changes", "why_tests_cant": "Tests see a few rings; stale records left over from earlier rounds of the ring could be read again in lives that no test has.", "anchors": ["internal/card/activity.go:unmarshalDriverActivityData", "internal/card/activity.go:parseActivityRecordsWithIterator", "internal/card/activity.go:parseSingleActivityDailyRecord", "internal/dd/activity_change_info.go:UnmarshalActivityChangeInfo"]}
{"id": "C150", "title": "Read from behind the index, the records are in the order of storing", "statement": "After vehicle units stored any number of records in a file of the card that is filled in turn, the list of the message read from behind the index of the newest record around to it ends with the records that were stored last, in the order of storing and each as decoded from the bytes stored: all of them, or as many as the file has places.", "quantifier": "all numbers of places, initial contents and sequences of stored records", "why_tests_cant": "Where the order starts depends on how many records were stored and how often the file went around, for any number of places; tests have a few recorded files.", "anchors": ["internal/card/places.go:unmarshalPlaces", "internal/card/places_g2.go:unmarshalPlacesG2", "internal/card/vehicles_used.go:unmarshalVehiclesUsed", "internal/card/vehicles_used_g2.go:unmarshalVehiclesUsedG2", "internal/card/gnss_places.go:unmarshalGnssPlaces", "internal/card/vehicle_units_used.go:unmarshalVehicleUnitsUsed", "internal/card/specific_conditions_g2.go:unmarshalSpecificConditionsG2"]}
