{
 "claims": [
  {
   "property": "C01",
   "status": "proved",
   "theorems": [
    "C01_dispatch"
   ],
   "note": ""
  },
  {
   "property": "C02",
   "status": "proved",
   "theorems": [
    "C02_raw_card_round_trip"
   ],
   "note": ""
  },
  {
   "property": "C03",
   "status": "proved",
   "theorems": [
    "C03_card_framing",
    "C03_card_framing_injective"
   ],
   "note": "Includes independence of the buffer: the scanner model is proved equal to splitting the whole remaining input."
  },
  {
   "property": "C04",
   "status": "proved",
   "theorems": [
    "C04_truncated_card_rejected"
   ],
   "note": ""
  },
  {
   "property": "C05",
   "status": "partial",
   "theorems": [
    "C05_no_panic_partial",
    "C05_no_panic_refuted"
   ],
   "note": "Exact set of crashing dumps: those with a record of 65531 bytes behind shorter ones."
  },
  {
   "property": "C06",
   "status": "partial",
   "theorems": [
    "C06_no_panic_partial",
    "C06_no_panic_refuted"
   ],
   "note": "Exactly the dumps that end inside a transfer before the next counter or record array crash the parser; complete downloads never do."
  },
  {
   "property": "C07",
   "status": "partial",
   "theorems": [
    "C07_record_lengths_partial",
    "C07_record_lengths_refuted"
   ],
   "note": "Lengths up to 65530 are accepted; 65531 panics and 65532..65535 are rejected as too long."
  },
  {
   "property": "C08",
   "status": "proved",
   "theorems": [
    "C08_inference_is_set_based",
    "C08_company_never_inferred"
   ],
   "note": ""
  },
  {
   "property": "C09",
   "status": "partial",
   "theorems": [
    "C09_card_types_partial",
    "C09_card_types_refuted"
   ],
   "note": "Holds for workshop and control cards and says for every dump when it is kept raw; company card dumps are never kept raw."
  },
  {
   "property": "C10",
   "status": "partial",
   "theorems": [
    "C10_applications_partial",
    "C10_applications_refuted"
   ],
   "note": "Provenance of every field and noninterference between the applications; files 0523, 0524 and 0525 of the first generation are filed under the second."
  },
  {
   "property": "C11",
   "status": "partial",
   "theorems": [
    "C11_signatures_partial",
    "C11_signatures_refuted"
   ],
   "note": "Adjacency and same file proved, orphan signatures rejected; the generation is not compared."
  },
  {
   "property": "C12",
   "status": "partial",
   "theorems": [
    "C12_nothing_ignored_partial",
    "C12_nothing_ignored_refuted"
   ],
   "note": "Holds for all but ten file identifiers, whose records leave no trace."
  },
  {
   "property": "C13",
   "status": "partial",
   "theorems": [
    "C13_order_partial",
    "C13_both_rejected",
    "C13_order_refuted"
   ],
   "note": "Holds unless ICC, IC, 0523, 0524 or 0525 occur in both generations."
  },
  {
   "property": "C14",
   "status": "proved",
   "theorems": [
    "C14_last_occurrence_wins"
   ],
   "note": "For the five files whose field does not depend on the generation, occurrences in either generation count."
  },
  {
   "property": "C15",
   "status": "partial",
   "theorems": [
    "C15_certificates_partial",
    "C15_certificates_refuted"
   ],
   "note": "No dump with a Card_MA certificate is accepted; the other second-generation certificates are."
  },
  {
   "property": "C16",
   "status": "partial",
   "theorems": [
    "C16_round_trip_partial",
    "C16_round_trip_refuted"
   ],
   "note": "Exactly which dumps come back: those in layout order with zero signatures and reproduced files; false in general."
  },
  {
   "property": "C17",
   "status": "partial",
   "theorems": [
    "C17_signatures_partial",
    "C17_signatures_ignored",
    "C17_signatures_refuted"
   ],
   "note": "The writer never looks at signatures; they come back only if they were 128 zero bytes."
  },
  {
   "property": "C18",
   "status": "partial",
   "theorems": [
    "C18_second_generation_partial",
    "C18_unwritten",
    "C18_second_generation_refuted"
   ],
   "note": "Eleven second-generation files are written, eight never are."
  },
  {
   "property": "C19",
   "status": "partial",
   "theorems": [
    "C19_normal_form_partial",
    "C19_normal_form_refuted",
    "C19_output_rejected_refuted"
   ],
   "note": "The second output is always final; when there is one, exactly; the first is final for plain dumps; false for card numbers that do not fit their field, and an output may even be rejected."
  },
  {
   "property": "C20",
   "status": "partial",
   "theorems": [
    "C20_marshal_partial",
    "C20_marshal_refuted"
   ],
   "note": "Raw cards always; driver cards exactly if nations are known and GNSS odometers in range; never a crash."
  },
  {
   "property": "C21",
   "status": "proved",
   "theorems": [
    "C21_time_real_round_trip"
   ],
   "note": ""
  },
  {
   "property": "C22",
   "status": "proved",
   "theorems": [
    "C22_odometer_round_trip"
   ],
   "note": ""
  },
  {
   "property": "C23",
   "status": "partial",
   "theorems": [
    "C23_bcd_decode_partial",
    "C23_bcd_encode",
    "C23_bcd_string_partial",
    "C23_bcd_refuted"
   ],
   "note": "Decoding also fails above int64, and BCD strings over 4 bytes wrap to 32 bits; both shown by the refutation. The partial theorems give the exact conditions."
  },
  {
   "property": "C24",
   "status": "partial",
   "theorems": [
    "C24_date_partial",
    "C24_month_year_partial",
    "C24_dates_refuted"
   ],
   "note": "Non-decimal BCD bytes do not round-trip (refuted). The partial theorems are equivalences: bytes come back exactly when all nibbles are decimal."
  },
  {
   "property": "C25",
   "status": "partial",
   "theorems": [
    "C25_csv_partial",
    "C25_csv_refuted"
   ],
   "note": "Fails exactly when a low nibble exceeds 9."
  },
  {
   "property": "C26",
   "status": "proved",
   "theorems": [
    "C26_enum_correspondence"
   ],
   "note": "All protocol enumerations of the code."
  },
  {
   "property": "C27",
   "status": "proved",
   "theorems": [
    "C27_geo_round_trip",
    "C27_gnss_record_round_trip"
   ],
   "note": ""
  },
  {
   "property": "C28",
   "status": "partial",
   "theorems": [
    "C28_string_value_partial",
    "C28_string_build",
    "C28_string_value_refuted"
   ],
   "note": "Unknown code pages do not round-trip (refuted); exact condition in the partial theorem."
  },
  {
   "property": "C29",
   "status": "proved",
   "theorems": [
    "C29_ia5_round_trip"
   ],
   "note": ""
  },
  {
   "property": "C30",
   "status": "partial",
   "theorems": [
    "C30_text_is_clean_partial",
    "C30_file_text_partial",
    "C30_file_text_refuted",
    "C30_padding_refuted"
   ],
   "note": "Every text of an accepted vehicle unit download and of an accepted card is valid UTF-8 without trailing blanks, except the second-generation vehicle identification number on cards: it is taken over byte by byte and need not be UTF-8 (witness given). Also missing: 0xFF padding stays in code-paged text."
  },
  {
   "property": "C31",
   "status": "partial",
   "theorems": [
    "C31_vehicle_registration_partial",
    "C31_no_wrong_nation",
    "C31_vehicle_registration_refuted"
   ],
   "note": "Also needs a known code page."
  },
  {
   "property": "C32",
   "status": "proved",
   "theorems": [
    "C32_activity_change_round_trip"
   ],
   "note": ""
  },
  {
   "property": "C33",
   "status": "proved",
   "theorems": [
    "C33_control_type_round_trip"
   ],
   "note": ""
  },
  {
   "property": "C34",
   "status": "partial",
   "theorems": [
    "C34_app_id_partial",
    "C34_app_id_g2_partial",
    "C34_app_id_v2_round_trip",
    "C34_app_id_refuted"
   ],
   "note": "Exactly the structure versions with a low nibble above 9 do not come back; counts always survive."
  },
  {
   "property": "C35",
   "status": "partial",
   "theorems": [
    "C35_ic_round_trip",
    "C35_icc_partial",
    "C35_icc_refuted"
   ],
   "note": "The ICC file comes back exactly when the month/year of the serial number is decimal; extra bytes are dropped."
  },
  {
   "property": "C36",
   "status": "partial",
   "theorems": [
    "C36_identification_partial",
    "C36_stable_partial",
    "C36_identification_refuted",
    "C36_stable_refuted"
   ],
   "note": "Every 143-byte content is accepted; written back exactly when the issuing state is known; equal to the input iff names have known code pages, the birth date is decimal and the (ASCII) card number is left-aligned. The unconditional claim is refuted (leading space, zero padding, unknown state); for non-ASCII numbers even a second cycle changes bytes."
  },
  {
   "property": "C37",
   "status": "partial",
   "theorems": [
    "C37_events_exact",
    "C37_events_listed",
    "C37_events_partial",
    "C37_events_refuted"
   ],
   "note": "Acceptance, listing and the exact write-back condition for every size: a record is lost if a later one takes its place in the scanner buffer (170 places) and differs from it. The unconditional claim is refuted by witness."
  },
  {
   "property": "C38",
   "status": "partial",
   "theorems": [
    "C38_events_exact",
    "C41_units_exact",
    "C38_stable_partial",
    "C38_stable_refuted"
   ],
   "note": "Which bytes every record shows in the end, for files of every size; hence stable for files that do not make bufio.Scanner reuse its buffer, refuted beyond."
  },
  {
   "property": "C39",
   "status": "proved",
   "theorems": [
    "C39_places_round_trip",
    "C39_places_g2_round_trip"
   ],
   "note": "An incomplete record at the end is dropped; whole files come back exactly."
  },
  {
   "property": "C40",
   "status": "partial",
   "theorems": [
    "C40_vehicles_partial",
    "C40_vehicles_g2_partial",
    "C40_vehicles_refuted"
   ],
   "note": "Exact conditions for acceptance and write-back; unknown nation, unknown code page and zero-padded VIN break it."
  },
  {
   "property": "C41",
   "status": "partial",
   "theorems": [
    "C41_gnss_places_partial",
    "C41_units_exact",
    "C41_units_partial",
    "C41_lists_refuted"
   ],
   "note": "GNSS: exact condition (odometer at most 999999). Units: exact condition for every size; always written back up to 409 records."
  },
  {
   "property": "C42",
   "status": "proved",
   "theorems": [
    "C42_conditions_round_trip",
    "C42_conditions_g2_round_trip"
   ],
   "note": "First generation drops an incomplete record at the end; second generation keeps every byte."
  },
  {
   "property": "C43",
   "status": "partial",
   "theorems": [
    "C43_card_download_round_trip",
    "C43_current_usage_partial",
    "C43_driving_licence_partial",
    "C43_control_activity_partial",
    "C43_small_files_refuted"
   ],
   "note": "Exact conditions under which each file comes back."
  },
  {
   "property": "C44",
   "status": "proved",
   "theorems": [
    "C44_ring_terminates",
    "C44_activity_bounded"
   ],
   "note": "Exact characterisation of success and failure along the chain of visited records."
  },
  {
   "property": "C45",
   "status": "partial",
   "theorems": [
    "C45_ring_partial",
    "C45_crossing_partial",
    "C45_ring_refuted"
   ],
   "note": "Holds when no four-byte header straddles the end of the buffer. With straddling headers exactly the days newer than the newest record with such a header are returned, the older ones are dropped without an error."
  },
  {
   "property": "C46",
   "status": "partial",
   "theorems": [
    "C46_changes_partial",
    "C46_changes_refuted"
   ],
   "note": "The changes are exactly the entries other than 0x0000 and 0xFFFF; the legal entry 0x0000 is lost."
  },
  {
   "property": "C47",
   "status": "proved",
   "theorems": [
    "C47_activity_verbatim"
   ],
   "note": ""
  },
  {
   "property": "C48",
   "status": "partial",
   "theorems": [
    "C48_rebuilt_partial",
    "C48_rebuilt_refuted"
   ],
   "note": "Holds for valid, linked days whose newest pointer is the position of the last day laid out from zero; otherwise the stale pointer loses days."
  },
  {
   "property": "C49",
   "status": "proved",
   "theorems": [
    "C49_split_without_loss"
   ],
   "note": "The splitting is also unique, and the raw values in the message are those of the transfers."
  },
  {
   "property": "C50",
   "status": "proved",
   "theorems": [
    "C50_truncated"
   ],
   "note": ""
  },
  {
   "property": "C51",
   "status": "partial",
   "theorems": [
    "C51_second_generation_partial",
    "C51_second_generation_refuted"
   ],
   "note": "Overview, detailed speed and interface version are accepted with any array contents; activities, events and faults and technical data never."
  },
  {
   "property": "C52",
   "status": "partial",
   "theorems": [
    "C52_parts_partial",
    "C52_round_trip_refuted"
   ],
   "note": "Every part of a message that was read is written as it was read by the writer of that part, but the writers are not used: vehicle unit files are never written."
  },
  {
   "property": "C53",
   "status": "proved",
   "theorems": [
    "C53_one_generation",
    "C49_split_without_loss"
   ],
   "note": ""
  },
  {
   "property": "C54",
   "status": "proved",
   "theorems": [
    "C54_authentic"
   ],
   "note": "Success is characterised exactly, and the certificates are traced to the last C100/C101 record of the dump."
  },
  {
   "property": "C55",
   "status": "partial",
   "theorems": [
    "C55_anchored_partial",
    "C55_anchored_refuted"
   ],
   "note": "First generation with the default sources; the second generation never looks at a root."
  },
  {
   "property": "C56",
   "status": "partial",
   "theorems": [
    "C56_altered_data_partial",
    "C56_altered_data_refuted"
   ],
   "note": "Altered certificates are detected unless the hash collides or a signature is good for two hashes. Verification looks at nothing but the two card certificates, so other altered data is not detected."
  },
  {
   "property": "C57",
   "status": "partial",
   "theorems": [
    "C57_marks_partial",
    "C57_marks_refuted"
   ],
   "note": "Success marks valid and means a valid signature; failures after the key check mark invalid; earlier failures keep a stale mark (refuted)."
  },
  {
   "property": "C58",
   "status": "partial",
   "theorems": [
    "C58_repeatable_partial",
    "C58_repeatable_refuted"
   ],
   "note": "Holds if the signed content names the same authority as the reference behind it."
  },
  {
   "property": "C59",
   "status": "proved",
   "theorems": [
    "C59_frame"
   ],
   "note": ""
  },
  {
   "property": "C60",
   "status": "partial",
   "theorems": [
    "C60_expired_partial",
    "C60_expired_refuted"
   ],
   "note": "Validity periods are not looked at in either generation; after a success the message has the dates that were signed, so that a caller can look at them."
  },
  {
   "property": "C61",
   "status": "proved",
   "theorems": [
    "C61_chain"
   ],
   "note": ""
  },
  {
   "property": "C62",
   "status": "proved",
   "theorems": [
    "C62_certificates_parsed"
   ],
   "note": "Exact characterisation for root, RSA and ECC; trailing bytes after the expected elements are ignored and tags other than the one of the object identifier are not checked, as the statement makes explicit."
  },
  {
   "property": "C63",
   "status": "proved",
   "theorems": [
    "C63_nothing_personal",
    "C63_kept",
    "C63_texts",
    "C63_dumps"
   ],
   "note": "For whole messages (all holder kinds) and for two accepted driver card dumps. The issuing nation, the language and the three indices of an owner number are kept by design and count as not personal. Sharing of sub-messages is in C118 and C119."
  },
  {
   "property": "C64",
   "status": "partial",
   "theorems": [
    "C64_nothing_revealed_partial",
    "C64_revealed_refuted"
   ],
   "note": "Holds for all pairs of messages in which the same records have times and the registering nations agree. Refuted beyond that: the presence of a time on a later record and the nation of a registration survive."
  },
  {
   "property": "C65",
   "status": "partial",
   "theorems": [
    "C65_edits_win_partial",
    "C65_other_files_partial",
    "C65_edits_win_refuted",
    "C65_lost_refuted"
   ],
   "note": "For places, vehicles used and special conditions of either generation: whole files follow the edited list, whatever bytes were kept; in place, vehicle and condition records edited fields are written and unedited fields keep their bytes. In every other file of fixed layout, and in the records of events, faults, GNSS places, units, Gen2 places and Gen2 vehicles, the fields tile the record and a field that is not edited keeps its bytes whatever else is edited; that an edited value is the one read back is C89. Refuted beyond that: text that keeps its raw bytes, a cleared region, removed Gen2 special conditions, the days of an activity file whose ring bytes are kept, and fields of entries marked as not in use are not edited."
  },
  {
   "property": "C66",
   "status": "partial",
   "theorems": [
    "C66_lengths_partial",
    "C66_lengths_refuted"
   ],
   "note": "Holds for contents up to 65535 bytes, in particular for all parsed cards."
  },
  {
   "property": "C67",
   "status": "partial",
   "theorems": [
    "C67_embedded_partial",
    "C67_lookup",
    "C67_embedded_refuted"
   ],
   "note": "Only the root is found; lookups use names without the directory under which the files are embedded."
  },
  {
   "property": "C68",
   "status": "partial",
   "theorems": [
    "C68_something_verified_partial",
    "C68_something_verified_refuted",
    "C68_unchecked_types_refuted"
   ],
   "note": "A driver card with only the two files outside the applications verifies with every source; so does everything read as a vehicle unit or raw card file."
  },
  {
   "property": "C69",
   "status": "partial",
   "theorems": [
    "C69_own_authority_partial",
    "C69_own_authority_refuted"
   ],
   "note": "Second generation only; a parsed first-generation authority certificate never has a key."
  },
  {
   "property": "C70",
   "status": "partial",
   "theorems": [
    "C70_still_files_partial",
    "C70_still_files_refuted"
   ],
   "note": "Proved with known nations and card numbers ending in two digits. Refuted otherwise: unknown nations make writing fail, and other card numbers make the identification lose its holder."
  },
  {
   "property": "C71",
   "status": "proved",
   "theorems": [
    "C71_twice"
   ],
   "note": ""
  },
  {
   "property": "C72",
   "status": "partial",
   "theorems": [
    "C72_order_partial",
    "C72_order_refuted"
   ],
   "note": "Order proved up to 48 changes per day; refuted with 49. No caller in the repository numbers the changes, the model numbers them from zero."
  },
  {
   "property": "C73",
   "status": "partial",
   "theorems": [
    "C73_vehicle_layout",
    "C73_vehicle_g2_layout",
    "C73_place_layout",
    "C73_place_g2_layout",
    "C73_gnss_place_layout",
    "C73_gnss_place_auth_layout",
    "C73_gnss_record_layout",
    "C73_condition_layout",
    "C73_ext_serial_layout",
    "C73_unit_layout",
    "C73_event_layout",
    "C73_ic_layout",
    "C73_icc_layout",
    "C73_current_usage_layout",
    "C73_driving_licence_layout",
    "C73_app_id_layout",
    "C73_app_id_g2_layout",
    "C73_identification_layout",
    "C73_list_layout",
    "C73_list_records",
    "C73_vehicle_counter",
    "C73_day_layout",
    "C73_control_card_misread",
    "C73_app_id_v2_refuted",
    "C73_control_card_refuted"
   ],
   "note": "Positions are given by concatenation in the documented order, independently of the model offsets. The card number and birth date of EF Identification are in C93. Missing: certificates (C62) and vehicle unit transfers (C76, C83); event and unit records are stated for a scanner slice that is not overwritten later. Refuted for Application_Identification_V2 and for the control card number."
  },
  {
   "property": "C74",
   "status": "partial",
   "theorems": [
    "C74_card_kinds_partial",
    "C74_card_kinds_refuted"
   ],
   "note": "Accepted numbers are of driver, workshop or company cards and get the documented type; a control card is rejected."
  },
  {
   "property": "C75",
   "status": "partial",
   "theorems": [
    "C75_issuing_state_partial",
    "C75_issuing_state_refuted"
   ],
   "note": "A named issuing state is decoded correctly if and only if its code is 56."
  },
  {
   "property": "C76",
   "status": "proved",
   "theorems": [
    "C76_overview_layout"
   ],
   "note": "Card numbers inside are decoded as C74 and C75 say, slots as C78 says."
  },
  {
   "property": "C77",
   "status": "partial",
   "theorems": [
    "C77_overview_of_a_controlled_vehicle",
    "C77_controlled_refuted"
   ],
   "note": "The claim fails for every overview with such a control."
  },
  {
   "property": "C78",
   "status": "partial",
   "theorems": [
    "C78_slots_misread",
    "C78_slots_refuted"
   ],
   "note": "Both halves are reported two below their documented enumeration number."
  },
  {
   "property": "C79",
   "status": "partial",
   "theorems": [
    "C79_card_number_partial",
    "C79_number_and_generation_partial",
    "C79_card_number_refuted"
   ],
   "note": "Written back unchanged exactly if the card is no driver card or both indexes are zero bytes; false in general."
  },
  {
   "property": "C80",
   "status": "partial",
   "theorems": [
    "C80_card_iw_partial",
    "C80_card_iw_refuted"
   ],
   "note": "Exact characterisation of the records that survive; false in general because driver card indexes are lost."
  },
  {
   "property": "C81",
   "status": "partial",
   "theorems": [
    "C81_overview_partial",
    "C81_overview_any",
    "C81_overview_refuted"
   ],
   "note": "Exact characterisation of the overviews that survive; false in general because of C78 and C79."
  },
  {
   "property": "C82",
   "status": "proved",
   "theorems": [
    "C82_signed_files"
   ],
   "note": "Added after a mutant that accepted a signature behind ICC survived."
  },
  {
   "property": "C83",
   "status": "proved",
   "theorems": [
    "C83_activities_layout"
   ],
   "note": "Card numbers inside are decoded as C74 and C75 say."
  },
  {
   "property": "C84",
   "status": "partial",
   "theorems": [
    "C84_accepted_days_partial",
    "C84_accepted_days_refuted"
   ],
   "note": "Exact acceptance condition; false in general because of control cards and unknown countries."
  },
  {
   "property": "C85",
   "status": "partial",
   "theorems": [
    "C85_first_generation_accepted",
    "C85_first_generation_layout",
    "C85_agrees_refuted"
   ],
   "note": "Exact acceptance and layout proved; the agreement with the decoder in use is false."
  },
  {
   "property": "C86",
   "status": "partial",
   "theorems": [
    "C86_never_panics_refuted",
    "C86_first_generation_panics",
    "C86_second_generation_panics",
    "C86_other_inputs"
   ],
   "note": "False in general; the panicking inputs are characterised exactly."
  },
  {
   "property": "C87",
   "status": "proved",
   "theorems": [
    "C87_second_generation_accepted",
    "C87_second_generation_layout"
   ],
   "note": ""
  },
  {
   "property": "C88",
   "status": "partial",
   "theorems": [
    "C88_all_records_read_refuted",
    "C88_all_records_read_partial"
   ],
   "note": "False before short endings; the exact condition for positions is in C87."
  },
  {
   "property": "C89",
   "status": "partial",
   "theorems": [
    "C89_built_card_partial",
    "C89_names_refuted",
    "C89_workshop_refuted",
    "C89_midnight_refuted",
    "C89_readable_refuted"
   ],
   "note": "Proved for cards whose fields meet explicit conditions on their values (built without raw bytes, or as parsed); refuted for the five kinds of contents beyond them."
  },
  {
   "property": "C90",
   "status": "proved",
   "theorems": [
    "C90_overview_accepted",
    "C90_day_accepted"
   ],
   "note": ""
  },
  {
   "property": "C91",
   "status": "proved",
   "theorems": [
    "C91_first_generation",
    "C91_second_generation"
   ],
   "note": ""
  },
  {
   "property": "C92",
   "status": "proved",
   "theorems": [
    "C92_driver_cards",
    "C92_charmap_irrelevant"
   ],
   "note": ""
  },
  {
   "property": "C93",
   "status": "proved",
   "theorems": [
    "C93_card_number",
    "C93_letter_index_refuted"
   ],
   "note": "Exact for every content of the file; the witness is a driver card whose replacement index is A, reported as a workshop card."
  },
  {
   "property": "C94",
   "status": "partial",
   "theorems": [
    "C94_recovered",
    "C94_recovery_is_verification",
    "C94_listed_refuted"
   ],
   "note": "The two equivalences hold as stated. That every listed holder is one the library accepts is false: the tool ignores the authority a certificate names."
  },
  {
   "property": "C95",
   "status": "partial",
   "theorems": [
    "C95_references",
    "C95_readable_refuted"
   ],
   "note": "Agreement holds for every certificate the library reads. Certificates it cannot read are listed as well."
  },
  {
   "property": "C96",
   "status": "partial",
   "theorems": [
    "C96_entries",
    "C96_files",
    "C96_shared",
    "C96_files_refuted"
   ],
   "note": "The entries are right for every interleaving. Two certificates of one holder with different sizes can leave a mixture of both in the file."
  },
  {
   "property": "C97",
   "status": "partial",
   "theorems": [
    "C97_order",
    "C97_sorted",
    "C97_reproducible_partial",
    "C97_reproducible_refuted"
   ],
   "note": "The comparison is a strict weak order. Reproducible without ties; with two certificates of one country and day two schedules sort differently."
  },
  {
   "property": "C98",
   "status": "partial",
   "theorems": [
    "C98_location_partial",
    "C98_names",
    "C98_location_refuted"
   ],
   "note": "Missing in C98_location_partial: names with a slash; C98_names says for every name where the file goes, and the witness is a link that makes the tool write outside of the output directory."
  },
  {
   "property": "C99",
   "status": "proved",
   "theorems": [
    "C99_first_generation",
    "C99_second_generation"
   ],
   "note": ""
  },
  {
   "property": "C100",
   "status": "partial",
   "theorems": [
    "C100_site_dates",
    "C100_validity_partial",
    "C100_validity_refuted"
   ],
   "note": "Site dates are exact. Certificate times are exact except for zero, which is shown as the year 1; the value for unlimited validity is shown as a day in 2106."
  },
  {
   "property": "C101",
   "status": "partial",
   "theorems": [
    "C101_rows",
    "C101_links",
    "C101_names",
    "C101_absolute_refuted"
   ],
   "note": "The rows are characterised exactly; absolute links are appended to the address of the site."
  },
  {
   "property": "C102",
   "status": "partial",
   "theorems": [
    "C102_parse_command",
    "C102_every_file_refuted"
   ],
   "note": "The output is characterised exactly. That every readable file is printed is false: a bad file hides those behind it, and a truncated download crashes the command."
  },
  {
   "property": "C103",
   "status": "partial",
   "theorems": [
    "C103_size_partial",
    "C103_size_refuted"
   ],
   "note": "Missing: a bound by the file size for the activity changes of cards. It does not hold: a 55-byte card file gives more than 1700 changes. The constant bounds per day and on the days are proved."
  },
  {
   "property": "C104",
   "status": "partial",
   "theorems": [
    "C104_untouched_buffer",
    "C104_reused_buffer_partial",
    "C104_reused_buffer_refuted"
   ],
   "note": "Missing: vehicle unit downloads. It does not hold for them; what changes is characterised exactly."
  },
  {
   "property": "C105",
   "status": "partial",
   "theorems": [
    "C105_kept_certificates_partial",
    "C105_default_source",
    "C105_kept_certificates_refuted"
   ],
   "note": "Missing: sources whose certificates have only one part of the key. It does not hold for them. Sequentially consistent memory with atomic setters is assumed."
  },
  {
   "property": "C106",
   "status": "proved",
   "theorems": [
    "C106_certificate",
    "C106_genuine_card",
    "C106_default_sources"
   ],
   "note": "Issuing (RSA and the layout of the content) is specified from the regulation, in Issue and Rsa."
  },
  {
   "property": "C107",
   "status": "proved",
   "theorems": [
    "C107_certificate"
   ],
   "note": "ECDSA and SHA-2 are parameters; the hypothesis is that the signature is valid for the hash of the body."
  },
  {
   "property": "C108",
   "status": "partial",
   "theorems": [
    "C108_64",
    "C108_32_partial",
    "C108_same_outcome_refuted",
    "C108_accepts_more_refuted"
   ],
   "note": "Proved for 64 bits. For 32 bits: false in general, two witnesses; proved for accepted files and for files without an announcement of 2^30 bytes."
  },
  {
   "property": "C109",
   "status": "partial",
   "theorems": [
    "C109_write_panics_partial",
    "C109_write_file_partial",
    "C109_no_nil",
    "C109_write_panics_refuted"
   ],
   "note": "Exact: the one kind of message on which it panics is characterised; C109_no_nil relates the model with nil elements to the one of the other claims."
  },
  {
   "property": "C110",
   "status": "partial",
   "theorems": [
    "C110_nil_refused_partial",
    "C110_nil_left_out",
    "C110_nil_place",
    "C110_nil_place_g2",
    "C110_nil_refused_refuted"
   ],
   "note": "Missing: events, faults, GNSS places, units, places, raw records and days beside raw bytes. It does not hold for them."
  },
  {
   "property": "C111",
   "status": "partial",
   "theorems": [
    "C111_verify_panics_partial",
    "C111_default_source",
    "C111_no_crash",
    "C111_rsa",
    "C111_verify_panics_refuted"
   ],
   "note": "Exact up to the ECDSA function, which is a parameter; refuted for every ECDSA function that panics off brainpoolP256r1, as that of Go does."
  },
  {
   "property": "C112",
   "status": "partial",
   "theorems": [
    "C112_anonymize_panics_partial",
    "C112_no_nil",
    "C112_nil_vehicle",
    "C112_anonymize_panics_refuted"
   ],
   "note": "Exact: places panic if and only if a record is nil; C112_no_nil relates the model with nil elements to the one of the other claims."
  },
  {
   "property": "C113",
   "status": "proved",
   "theorems": [
    "C113_numbers_fit"
   ],
   "note": ""
  },
  {
   "property": "C114",
   "status": "proved",
   "theorems": [
    "C114_two_cycles"
   ],
   "note": ""
  },
  {
   "property": "C115",
   "status": "proved",
   "theorems": [
    "C115_same_message",
    "C115_any_order"
   ],
   "note": ""
  },
  {
   "property": "C116",
   "status": "proved",
   "theorems": [
    "C116_charset",
    "C116_ascii"
   ],
   "note": ""
  },
  {
   "property": "C117",
   "status": "proved",
   "theorems": [
    "C117_same_card"
   ],
   "note": ""
  },
  {
   "property": "C118",
   "status": "proved",
   "theorems": [
    "C118_anonymise_leaves_source"
   ],
   "note": ""
  },
  {
   "property": "C119",
   "status": "partial",
   "theorems": [
    "C119_shared_partial",
    "C119_edits_partial",
    "C119_shared_refuted"
   ],
   "note": "Places of both generations share nothing. Vehicles used share exactly the vehicle counters, an identification exactly the indices of the owner and the language of the holder; C119_shared_refuted changes the anonymised file through them."
  },
  {
   "property": "C120",
   "status": "partial",
   "theorems": [
    "C120_sizes_partial",
    "C120_parts_partial",
    "C120_sizes_refuted"
   ],
   "note": "Chip, application identifications, download, lists and current usage have their size whatever is missing (Gen2 conditions keep longer old bytes). Licence, control, chip card and identification have it exactly if the named texts are there; C120_sizes_refuted writes each of them too short for its own reader. Texts are assumed to declare their documented length."
  },
  {
   "property": "C121",
   "status": "partial",
   "theorems": [
    "C121_days_partial",
    "C121_days_refuted"
   ],
   "note": "The file is the days in a row, each cut to the size it declares; days with a counter that declare no size or enough of it are whole. Refuted: a day that was given one more change than it declares loses it without an error, and a day without a counter is read back with shifted fields."
  },
  {
   "property": "C122",
   "status": "partial",
   "theorems": [
    "C122_success_partial",
    "C122_old_or_new",
    "C122_refuted",
    "C122_content_refuted"
   ],
   "note": "After a success every named file is there, with its certificate if no other row leads to its path; a killed or failed run leaves the old index or one that cannot be read. Refuted: a run that fails after cleaning leaves the old index without its files, and of two rows with one path a failed write spoils the file of the other."
  },
  {
   "property": "C123",
   "status": "partial",
   "theorems": [
    "C123_success_partial",
    "C123_refuted"
   ],
   "note": "After a success the root and both tables were there and the index has exactly one entry for each row that was accepted and could be written. Refuted: with no certificate to be downloaded the run still succeeds and leaves an empty index."
  },
  {
   "property": "C124",
   "status": "partial",
   "theorems": [
    "C124_missing_partial",
    "C124_files",
    "C124_missing_refuted"
   ],
   "note": "Times, dates, numbers, registrations, card numbers and most enumerations that are missing read back as missing, zero or empty or are refused. Refuted: a missing position reads back as 0, 0, a place without a type as the beginning of work, an event without a beginning is lost as a whole, and an empty card is written as an empty file."
  },
  {
   "property": "C125",
   "status": "proved",
   "theorems": [
    "C125_other_contents",
    "C125_version_ignored",
    "C125_version_handed"
   ],
   "note": ""
  },
  {
   "property": "C126",
   "status": "partial",
   "theorems": [
    "C126_numbers_partial",
    "C126_numbers_refuted"
   ],
   "note": "The number of records is the number of whole records that the file has room for, so it is the declared one if the file has the size that follows from the declaration. Refuted: a card that declares 84 places and has a file with one is accepted."
  },
  {
   "property": "C127",
   "status": "partial",
   "theorems": [
    "C127_verdict_partial",
    "C127_verdict_refuted"
   ],
   "note": "A card that passes still passes, and the verdict is the same unless all second-generation files of the card are among those that are never written. Refuted: a card with a valid first-generation certificate whose only second-generation file is the driving licence fails before and passes after."
  },
  {
   "property": "C128",
   "status": "proved",
   "theorems": [
    "C128_cards",
    "C128_downloads"
   ],
   "note": ""
  },
  {
   "property": "C129",
   "status": "partial",
   "theorems": [
    "C129_unambiguous_partial",
    "C129_parsed",
    "C129_unambiguous_refuted"
   ],
   "note": "Proved for messages whose files have at most 65535 bytes, in particular for all parsed ones. Refuted: a certificate of 65537 bytes is written as one of one byte and an authority certificate."
  },
  {
   "property": "C130",
   "status": "partial",
   "theorems": [
    "C130_at_once_partial",
    "C130_accepted_partial",
    "C130_at_once_refuted"
   ],
   "note": "Proved if a verification leaves the name of the authority in the certificate as it is, in particular for accepted cards whose certificate names the same authority inside and outside. Refuted for others: the second goroutine asks for the authority the first one has filled in. Memory is sequentially consistent and setters are atomic in the model."
  },
  {
   "property": "C131",
   "status": "partial",
   "theorems": [
    "C131_more_sources_partial",
    "C131_more_sources_refuted"
   ],
   "note": "Proved for sources put behind, and anywhere if they contradict no answer. Refuted for a source in front that answers with another certificate."
  },
  {
   "property": "C132",
   "status": "partial",
   "theorems": [
    "C132_anchor_partial",
    "C132_identifier",
    "C132_anchor_refuted"
   ],
   "note": "Proved for programs that write only to memory of their own; the identifier and the length of the key stay whatever the program does. Refuted: the getters of a root certificate give parts of the package variable; writing one byte of the exponent, or appending to the modulus, lets a card verify that was refused before."
  },
  {
   "property": "C133",
   "status": "proved",
   "theorems": [
    "C133_requests"
   ],
   "note": "For every network; for networks that answer a request always the same way the outcome is shown to be that of the model of verification used elsewhere."
  },
  {
   "property": "C134",
   "status": "partial",
   "theorems": [
    "C134_work_partial",
    "C134_work_refuted"
   ],
   "note": "At most two powers, with at most 126 products below 256^256 each, if neither the root nor the authority has a modulus of zero. Refuted: if the root has signed an authority key with modulus zero, big.Int.Exp computes the power itself. Products are those of square-and-multiply."
  },
  {
   "property": "C135",
   "status": "proved",
   "theorems": [
    "C135_write_while_verifying"
   ],
   "note": "Steps are interleaved, not overlapping: writing one elementary file is one step. A writer ends after 28 turns."
  },
  {
   "property": "C136",
   "status": "proved",
   "theorems": [
    "C136_bytes",
    "C136_read"
   ],
   "note": "Contents fit into records if they have at most 65530 bytes (see C07). Reading the edited card needs the chip file, as for every card, and an edit of the Card_MA certificate of the second generation is left out (see C15)."
  },
  {
   "property": "C137",
   "status": "partial",
   "theorems": [
    "C137_kind_partial",
    "C137_kind_refuted"
   ],
   "note": "Proved for all files that were read and for card messages whose contents have at most 65530 bytes. Refuted: raw records put together by a program may be written as a driver card, and a card message with a certificate of 65536 bytes is written as a raw card."
  },
  {
   "property": "C138",
   "status": "partial",
   "theorems": [
    "C138_cards_partial",
    "C138_downloads_partial",
    "C138_cut_off_refuted"
   ],
   "note": "Proved for driver cards and vehicle units; the beginning of a download of generation 2 version 2 that has no transfer of that version is read as version 1. Refuted for other cards: without the record that shows that it is no driver card, the rest is read as a driver card and may be refused."
  },
  {
   "property": "C139",
   "status": "proved",
   "theorems": [
    "C139_same_scanner",
    "C139_scanners",
    "C139_cards"
   ],
   "note": "The counted scanner is the one of the other claims. What callers do with a token is not counted. A record of an event or fault file without content makes a buffer of 4096 bytes, hence the factor of the file length."
  },
  {
   "property": "C140",
   "status": "partial",
   "theorems": [
    "C140_limit_partial",
    "C140_ends_partial",
    "C140_one",
    "C140_limit_refuted"
   ],
   "note": "The limit holds if it is not negative; the run ends, with every row done, if it is not zero; with one download at a time the rows are done in their order. Refuted: with -concurrency 0 the tool waits for ever before the first download, after it has removed the old cache, and with a negative value there is no limit. errgroup is modelled after golang.org/x/sync v0.16.0, which is not part of the repository."
  },
  {
   "property": "C141",
   "status": "partial",
   "theorems": [
    "C141_removed_partial",
    "C141_stripped",
    "C141_removed_refuted"
   ],
   "note": "Holds if no application disappears with the files and the download has each of the two card certificates at most once. Refuted without either: every accepted card passes, whatever the source, once all its files but those of the chip are left out; a failing first-generation application can be left out and the second passes; of two certificates the later one counts, so leaving it out can turn the verdict."
  },
  {
   "property": "C142",
   "status": "partial",
   "theorems": [
    "C142_holder_partial",
    "C142_transplanted",
    "C142_purpose_refuted"
   ],
   "note": "After a success the message has the holder reference that was signed, and for the second generation its authorisation, so a caller can compare them. The library does not: behind every download of any card the two certificates of one card that passes can be put, and the result passes with all other files unchanged; and a card passes with certificates of a Member State authority and of other holders."
  },
  {
   "property": "C143",
   "status": "partial",
   "theorems": [
    "C143_first_partial",
    "C143_second_partial",
    "C143_shifted",
    "C143_trailing",
    "C143_one_form_refuted"
   ],
   "note": "With the same signature a first-generation certificate has one form up to collisions, and a second-generation certificate one body. Refuted: a first-generation signature may be larger than the modulus, so adding the modulus gives another certificate that passes; a second-generation certificate may be followed by any bytes up to 341 in all, and its outer tags are neither signed nor checked. That ECDSA itself may admit a second signature is not part of the model."
  },
  {
   "property": "C144",
   "status": "partial",
   "theorems": [
    "C144_first_partial",
    "C144_name_ignored",
    "C144_named_refuted"
   ],
   "note": "First generation: the name at the end of the card certificate is the one in the certificate with the key, or the one that the root signed with the key. Refuted: in the second generation only the key of the certificate that the source returns counts, so one with another name passes; in the first generation the signer named inside the signed content is not compared with the one at the end of the certificate."
  },
  {
   "property": "C145",
   "status": "partial",
   "theorems": [
    "C145_in_use_partial",
    "C145_nothing_lost_partial",
    "C145_in_use_refuted"
   ],
   "note": "The days on the card are the latest that fit. Read are those newer than the last one that starts in the last three bytes of the string, so all of them if no day of the life of the card starts there; more than 365 are an error and changes coded 0 or 65535 are left out (C46). Refuted: with the newest day starting there nothing is read although days are on the card. How vehicle units write is a specification after the regulation (Use.v)."
  },
  {
   "property": "C146",
   "status": "partial",
   "theorems": [
    "C146_total",
    "C146_accepted",
    "C146_units_partial",
    "C146_units_refuted"
   ],
   "note": "Places and conditions: always read and right. Vehicles and positions: right whenever the file is read. Vehicle units: right in files of at most 409 records; with 410 the oldest record of the message shows bytes of another one (scanner buffer, C41). How vehicle units store records is a specification after the regulation."
  },
  {
   "property": "C147",
   "status": "partial",
   "theorems": [
    "C147_joins_partial",
    "C147_gap_partial",
    "C147_joins_refuted",
    "C147_records",
    "C147_units_partial"
   ],
   "note": "Days: proved for cards with at most 365 days so far, none of which starts in the last three bytes of the string; refuted otherwise: the second message can be empty although what was stored fits (C145). If it does not fit, the second message holds only days that started after the first download. Records by index: proved for places, conditions, vehicles and positions, and for vehicle units in files of at most 409 records (C146)."
  },
  {
   "property": "C148",
   "status": "partial",
   "theorems": [
    "C148_gen1_partial",
    "C148_gen2_partial",
    "C148_records",
    "C148_refuted"
   ],
   "note": "Proved for cards with at most 365 days so far, none of which starts in the last three bytes of the string. Refuted: a card with 366 days in a string of 4800 bytes, used as prescribed and otherwise readable, is not read at all. What use is follows the specification in Use.v and Props_Newest.v."
  },
  {
   "property": "C149",
   "status": "proved",
   "theorems": [
    "C149_in_order",
    "C149_no_day_twice"
   ],
   "note": "Also for the lives of a card in which days are left out (C145). What use is follows the specification in Use.v."
  },
  {
   "property": "C150",
   "status": "partial",
   "theorems": [
    "C150_stored_order",
    "C150_units_partial",
    "C150_units_refuted"
   ],
   "note": "Proved for six files whenever they are read, and for the vehicle units used with at most 409 records; with 410 the units file shows a first record that was never stored (C150_units_refuted). Follows from C146."
  }
 ]
}