{
 "claims": [
  {
   "property": "C01",
   "status": "proved",
   "theorems": [
    "C01_terminates",
    "C01_parse_returns"
   ],
   "note": ""
  },
  {
   "property": "C02",
   "status": "proved",
   "theorems": [
    "C02_suffix"
   ],
   "note": ""
  },
  {
   "property": "C03",
   "status": "proved",
   "theorems": [
    "C03_errors"
   ],
   "note": ""
  },
  {
   "property": "C04",
   "status": "proved",
   "theorems": [
    "C04_Vec",
    "C04_Definitions"
   ],
   "note": ""
  },
  {
   "property": "C05",
   "status": "proved",
   "theorems": [
    "C05_parse_ok",
    "C05_otherwise_panics",
    "C05_never_Err",
    "C05_malformed_is_Err_refuted"
   ],
   "note": "The code never returns Err: C05_malformed_is_Err_refuted is the refutation of the documented behaviour; the other theorems say what happens."
  },
  {
   "property": "C06",
   "status": "proved",
   "theorems": [
    "C06_sound",
    "C06_exact",
    "C06_Definitions_exact"
   ],
   "note": ""
  },
  {
   "property": "C07",
   "status": "proved",
   "theorems": [
    "C07_complete",
    "C07_printed",
    "C07_range"
   ],
   "note": ""
  },
  {
   "property": "C08",
   "status": "proved",
   "theorems": [
    "C08_layout",
    "C08_tokens_unique",
    "C08_around"
   ],
   "note": ""
  },
  {
   "property": "C09",
   "status": "proved",
   "theorems": [
    "C09_unambiguous"
   ],
   "note": ""
  },
  {
   "property": "C10",
   "status": "proved",
   "theorems": [
    "C10_reparse",
    "C10_print_injective"
   ],
   "note": ""
  },
  {
   "property": "C11",
   "status": "proved",
   "theorems": [
    "C11_progress",
    "C11_no_many0_error",
    "C11_no_separated_list_error"
   ],
   "note": ""
  },
  {
   "property": "C12",
   "status": "proved",
   "theorems": [
    "C12_identifier",
    "C12_identifier_fails"
   ],
   "note": ""
  },
  {
   "property": "C13",
   "status": "proved",
   "theorems": [
    "C13_keyword",
    "C13_count"
   ],
   "note": ""
  },
  {
   "property": "C14",
   "status": "proved",
   "theorems": [
    "C14_exclusive",
    "C14_keywords_exclusive"
   ],
   "note": ""
  },
  {
   "property": "C15",
   "status": "proved",
   "theorems": [
    "C15_dec",
    "C15_oct",
    "C15_integer",
    "C15_dec_disjoint"
   ],
   "note": ""
  },
  {
   "property": "C16",
   "status": "proved",
   "theorems": [
    "C16_hex",
    "C16_hex_documented_refuted"
   ],
   "note": "C16_hex is the exact behaviour; the documented syntax is refuted by 0x (C16_hex_documented_refuted)."
  },
  {
   "property": "C17",
   "status": "proved",
   "theorems": [
    "C17_float",
    "C17_float_fails",
    "C17_not_integer"
   ],
   "note": ""
  },
  {
   "property": "C18",
   "status": "proved",
   "theorems": [
    "C18_string"
   ],
   "note": ""
  },
  {
   "property": "C19",
   "status": "proved",
   "theorems": [
    "C19_blank",
    "C19_unique"
   ],
   "note": ""
  },
  {
   "property": "C20",
   "status": "proved",
   "theorems": [
    "C20_trailing_comment_refuted",
    "C20_line",
    "C20_closed",
    "C20_block"
   ],
   "note": "Refuted: a text ending in a line comment without newline panics (C20_trailing_comment_refuted). C20_line and C20_block prove that this always happens, C20_closed that with the newline the comment is ignored."
  },
  {
   "property": "C21",
   "status": "proved",
   "theorems": [
    "C21_blank",
    "C21_blank_accepted_refuted"
   ],
   "note": "The empty text gives []; every other blank text panics, so acceptance is refuted (C21_blank_accepted_refuted)."
  },
  {
   "property": "C22",
   "status": "proved",
   "theorems": [
    "C22_punctuated",
    "C22_instances"
   ],
   "note": ""
  },
  {
   "property": "C23",
   "status": "proved",
   "theorems": [
    "C23_punctuated_non_empty",
    "C23_instances",
    "C23_enum"
   ],
   "note": ""
  },
  {
   "property": "C24",
   "status": "proved",
   "theorems": [
    "C24_default_optional"
   ],
   "note": ""
  },
  {
   "property": "C25",
   "status": "proved",
   "theorems": [
    "C25_attributes"
   ],
   "note": ""
  },
  {
   "property": "C26",
   "status": "proved",
   "theorems": [
    "C26_record_keys"
   ],
   "note": ""
  },
  {
   "property": "C27",
   "status": "proved",
   "theorems": [
    "C27_integer_type"
   ],
   "note": ""
  },
  {
   "property": "C28",
   "status": "proved",
   "theorems": [
    "C28_nullable",
    "C28_any",
    "C28_promise",
    "C28_any_word_refuted"
   ],
   "note": ""
  },
  {
   "property": "C29",
   "status": "proved",
   "theorems": [
    "C29_kind",
    "C29_decided",
    "C29_exclusive",
    "C29_takes",
    "C29_exclusive_refuted"
   ],
   "note": "Proved with one exception, which is refuted: `typedef includes X;` matches the typedef and the includes alternative (C29_exclusive_refuted); the typedef wins because it comes first."
  },
  {
   "property": "C30",
   "status": "proved",
   "theorems": [
    "C30_interface",
    "C30_mixin",
    "C30_namespace",
    "C30_dictionary",
    "C30_definition"
   ],
   "note": ""
  },
  {
   "property": "C31",
   "status": "proved",
   "theorems": [
    "C31_concatenation",
    "C31_division"
   ],
   "note": ""
  },
  {
   "property": "C32",
   "status": "proved",
   "theorems": [
    "C32_slices"
   ],
   "note": ""
  },
  {
   "property": "C33",
   "status": "proved",
   "theorems": [
    "C33_tokens",
    "C33_pieces"
   ],
   "note": ""
  },
  {
   "property": "C34",
   "status": "proved",
   "theorems": [
    "C34_two_members_refuted",
    "C34_one_member_refuted"
   ],
   "note": "Refuted: `()` and `(long)` are accepted as union types."
  },
  {
   "property": "C35",
   "status": "proved",
   "theorems": [
    "C35_last",
    "C35_each"
   ],
   "note": ""
  },
  {
   "property": "C36",
   "status": "proved",
   "theorems": [
    "C36_escaped"
   ],
   "note": ""
  },
  {
   "property": "C37",
   "status": "proved",
   "theorems": [
    "C37_polynomial_refuted",
    "C37_exponential"
   ],
   "note": "Refuted: C37_polynomial_refuted shows accepted texts with more steps than any given polynomial in the length, C37_exponential that 2^k steps are reached with 20k+22 characters."
  },
  {
   "property": "C38",
   "status": "proved",
   "theorems": [
    "C38_linear",
    "C38_unbounded"
   ],
   "note": ""
  },
  {
   "property": "C39",
   "status": "proved",
   "theorems": [
    "C39_rest"
   ],
   "note": ""
  },
  {
   "property": "C40",
   "status": "proved",
   "theorems": [
    "C40_exponential",
    "C40_parse_exponential",
    "C40_depth",
    "C40_polynomial",
    "C40_nesting",
    "C40_linear"
   ],
   "note": "Steps are calls of the lexical layer and of recursive parsers (Cost.v)."
  },
  {
   "property": "C41",
   "status": "proved",
   "theorems": [
    "C41_enums",
    "C41_terms",
    "C41_identifiers",
    "C41_strings"
   ],
   "note": ""
  },
  {
   "property": "C42",
   "status": "proved",
   "theorems": [
    "C42_split",
    "C42_unique",
    "C42_computed"
   ],
   "note": ""
  },
  {
   "property": "C43",
   "status": "proved",
   "theorems": [
    "C43_utf8",
    "C43_safe",
    "C43_same",
    "C43_parse"
   ],
   "note": ""
  },
  {
   "property": "C44",
   "status": "proved",
   "theorems": [
    "C44_replace",
    "C44_any_text"
   ],
   "note": ""
  },
  {
   "property": "C45",
   "status": "proved",
   "theorems": [
    "C45_sound",
    "C45_exact",
    "C45_arguments",
    "C45_attributes"
   ],
   "note": ""
  },
  {
   "property": "C46",
   "status": "proved",
   "theorems": [
    "C46_resume",
    "C46_monotone",
    "C46_prefix"
   ],
   "note": "resumption at the rest, monotonicity, prefixes of accepted texts"
  },
  {
   "property": "C47",
   "status": "proved",
   "theorems": [
    "C47_reserved_refuted",
    "C47_types",
    "C47_after_long"
   ],
   "note": "the property as stated is refuted for all words; the exact sets of reserved words for types and behind long are proved"
  },
  {
   "property": "C48",
   "status": "proved",
   "theorems": [
    "C48_scan",
    "C48_two_phases"
   ],
   "note": "all parsers that do not use the terms - and . (which occur in no rule); parse as a function in two phases"
  },
  {
   "property": "C49",
   "status": "proved",
   "theorems": [
    "C49_total",
    "C49_str"
   ],
   "note": "derived Ord modelled by the order of variants and fields in Data.v; Hash is a function of the same data"
  },
  {
   "property": "C50",
   "status": "proved",
   "theorems": [
    "C50_linear",
    "C50_tokens"
   ],
   "note": "nodes counted on the data of Data.v"
  },
  {
   "property": "C51",
   "status": "proved",
   "theorems": [
    "C51_accepts",
    "C51_fragment",
    "C51_standard_refuted"
   ],
   "note": "the standard is transcribed in WebIDL.v (from memory, checked against the six files of tests/defs); proved for the fragment without the eight listed constructs, refuted for these"
  },
  {
   "property": "C52",
   "status": "proved",
   "theorems": [
    "C52_relaxed",
    "C52_rejects",
    "C52_standard_refuted",
    "C52_decidable"
   ],
   "note": "C52_relaxed: upper bound, the accepted texts are derivable in the relaxed grammar; C52_standard_refuted: a witness for every relaxation that it is not in the standard itself, using the decision procedure of C52_decidable."
  },
  {
   "property": "C53",
   "status": "proved",
   "theorems": [
    "C53_read",
    "C53_parse",
    "C53_impls",
    "C53_covered",
    "C53_parsers"
   ],
   "note": "Proved for all texts. Trusted instead of the hand-written model: the reader of the Rust subset (Rust.v, Crate.v), its interpreter (Interp.v), nom in Nom.v, and that Source.v is the text of /repo/src (tools/embed.py --check)."
  },
  {
   "property": "C54",
   "status": "proved",
   "theorems": [
    "C54_values",
    "C54_injective",
    "C54_declared",
    "C54_parse_typed",
    "C54_typed",
    "C54_order",
    "C54_model_order",
    "C54_derived"
   ],
   "note": "Typing by the declarations read from the source text, in both directions; derived order from the declarations."
  },
  {
   "property": "C55",
   "status": "proved",
   "theorems": [
    "C55_live",
    "C55_unused"
   ],
   "note": "Over the declarations read from the source text and the results of running the source (C53, C54)."
  },
  {
   "property": "C56",
   "status": "proved",
   "theorems": [
    "C56_transparent",
    "C56_kept",
    "C56_once",
    "C56_first",
    "C56_parse",
    "C56_field",
    "C56_once_argument_refuted"
   ],
   "note": "For all 42 parsers with an attributes field; two lists are possible in front of arguments (refuted there)."
  },
  {
   "property": "C57",
   "status": "proved",
   "theorems": [
    "C57_join",
    "C57_cut"
   ],
   "note": "Members of interfaces, mixins, namespaces, dictionaries, and definitions."
  },
  {
   "property": "C58",
   "status": "proved",
   "theorems": [
    "C58_unit",
    "C58_integration",
    "C58_read"
   ],
   "note": ""
  },
  {
   "property": "C59",
   "status": "proved",
   "theorems": [
    "C59_forms",
    "C59_forms_refuted",
    "C59_all_forms",
    "C59_terms",
    "C59_terms_refuted",
    "C59_examples",
    "C59_programs",
    "C59_read"
   ],
   "note": "Refuted for five documentations of forms and for one term (NegInfinity); each refutation has a witness. BufferSource has no closing tick."
  },
  {
   "property": "C60",
   "status": "proved",
   "theorems": [
    "C60_regexes",
    "C60_hex_refuted",
    "C60_read"
   ],
   "note": "Refuted for HexLit (0x is accepted, and its expression has a stray parenthesis)."
  },
  {
   "property": "C61",
   "status": "proved",
   "theorems": [
    "C61_structs",
    "C61_enums",
    "C61_option",
    "C61_box",
    "C61_tuples",
    "C61_vec",
    "C61_punctuated",
    "C61_nonempty",
    "C61_known",
    "C61_noargs",
    "C61_single",
    "C61_from",
    "C61_variants"
   ],
   "note": "About the declarations after expansion of the macros, and the results of running the source (C53). Hypotheses of the generic types (Known, Consuming) hold for everything that is modelled (C61_known)."
  },
  {
   "property": "C62",
   "status": "proved",
   "theorems": [
    "C62_apart",
    "C62_overlap",
    "C62_order"
   ],
   "note": "About the results of running the source (C53) on the declarations after expansion of the macros. In C62_order one enum is put in another order; the types of its variants are read as in the source."
  },
  {
   "property": "C63",
   "status": "proved",
   "theorems": [
    "C63_injective",
    "C63_parse",
    "C63_model",
    "C63_chars",
    "C63_derived"
   ],
   "note": "debug models what derive(Debug) and the standard library write, parametrised by the version of the standard library; proved injective on all typed values (SourceDerive.v)."
  },
  {
   "property": "C64",
   "status": "proved",
   "theorems": [
    "C64_struct",
    "C64_enum",
    "C64_flat",
    "C64_needed",
    "C64_everywhere_refuted"
   ],
   "note": "Where Copy is derived all parts are Copy; every other type but ConstType has a value with a vector or a box. That Copy is derived wherever it can be is refuted by ConstType."
  },
  {
   "property": "C65",
   "status": "proved",
   "theorems": [
    "C65_injective",
    "C65_model",
    "C65_derived",
    "C65_enums"
   ],
   "note": "hashed models the bytes that derive(Hash) and the standard library write, for any width and byte order of usize; proved injective and prefix-free on all typed values (SourceHash.v)."
  },
  {
   "property": "C66",
   "status": "proved",
   "theorems": [
    "C66_names",
    "C66_once",
    "C66_imports",
    "C66_read"
   ],
   "note": "The use declarations and the items of each file are read from the source text; checked by computation over all names. Names of variants, fields, local variables and macros are not covered."
  },
  {
   "property": "C67",
   "status": "proved",
   "theorems": [
    "C67_same",
    "C67_read",
    "C67_alpha",
    "C67_alike",
    "C67_capture"
   ],
   "note": "Over the source text: the macros of the crate with marked variables; alpha-equal items run alike."
  },
  {
   "property": "C68",
   "status": "proved",
   "theorems": [
    "C68_balanced",
    "C68_prefix",
    "C68_stack",
    "C68_semicolons",
    "C68_braces",
    "C68_outline",
    "C68_count"
   ],
   "note": "Over the tokens of the text (C42); by induction over the printers of Spec.v and exactness (C06)."
  },
  {
   "property": "C69",
   "status": "proved",
   "theorems": [
    "C69_slices",
    "C69_errors",
    "C69_literals"
   ],
   "note": "On the source as run by Interp.v; a slice is meant by content, addresses are not modelled."
  },
  {
   "property": "C70",
   "status": "proved",
   "theorems": [
    "C70_depth",
    "C70_once",
    "C70_parse",
    "C70_impls"
   ],
   "note": "On the source as run by Interp.v; the depth is that of the interpreter, not a machine stack."
  }
 ]
}