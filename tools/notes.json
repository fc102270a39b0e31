{
 "C13": {
  "status": "partial",
  "note": "Replays inside the 32-entry window of a non-zero partial IV are refused and fresh non-zero ones delivered; at-most-once, partial IV 0 and forged-first are refuted with witnesses."
 },
 "C14": {
  "status": "partial",
  "note": "No reuse under timely persists; the stack does not enforce them: second crash before the boot persist and multicast sends are refuting witnesses."
 },
 "C15": {
  "status": "partial",
  "note": "Exact characterisation of the options on which the decoder leaves its bounds; such options exist (refuted)."
 },
 "C17": {
  "note": "Round trip and text form proved; the reader accepts some non-UUID text and the generated variant bits are wrong (refuted)."
 },
 "C18": {
  "status": "proved",
  "note": "All texts and buffer sizes; exception shown by a witness."
 },
 "C19": {
  "status": "proved",
  "note": "Lookup, iteration and iteration by key for all lists of pairs; exceptions shown by witnesses."
 },
 "C01": {
  "status": "proved",
  "note": "Round trip and RFC layout for all well-formed messages; the two malformed outputs named in the statement are shown by witnesses."
 },
 "C02": {
  "status": "proved",
  "note": "Framing, layout and round trip for all well-formed messages below 4 GiB; the exception of the statement is shown by a witness."
 },
 "C03": {
  "status": "partial",
  "note": "False as stated (five refuting witnesses); proved: reads stay within four bytes behind a datagram that has header and token and do not influence the result, RFC-conformant datagrams stay in bounds, the validity check agrees with the parser."
 },
 "C05": {
  "status": "proved",
  "note": "Round trip of both options and the decoder; exceptions shown by witnesses."
 },
 "C06": {
  "status": "proved",
  "note": "Proved for strings without separator at the ends; exceptions shown by witnesses."
 },
 "C46": {
  "status": "proved",
  "note": "All messages and non-zero buffer sizes; exception shown by a witness."
 },
 "C07": {
  "note": "Limit, spacing, exact wait, progress, acknowledgement proved for messages whose secured endpoint has a TLS peer; a foreign message with the same id stops retransmission, the limit fails without a peer, and only three of four allowed retransmissions are made (refuted)."
 },
 "C08": {
  "note": "Window semantics proved exactly for non-confirmable requests; dropped first message id 0, collisions between clients and executed confirmable duplicates refute the full statement."
 },
 "C09": {
  "note": "Server and client reassembly proved for transfers of one payload in blocks of one size, with interleaving; mixing of two transfers, truncation by OC_BLOCK_SIZE, changing block size and unrequested blocks are refuting witnesses."
 },
 "C10": {
  "status": "proved",
  "note": "Served and sent blocks are the slices asked for and add up to the payload; exceptions shown by witnesses."
 },
 "C20": {
  "status": "proved",
  "note": "Refinement of pointer-level lists to sequences for all histories adding detached elements; for all lists re-adding a member diverges (also shown by a refuting witness of the naive reading). oc_list_copy not modelled."
 },
 "C21": {
  "status": "proved",
  "note": "All histories; init writes outside the pool for blocks smaller than a pointer (exact condition proved, witness given). The heap-backed form (num=0) is not modelled."
 },
 "C22": {
  "status": "proved",
  "note": "All histories of allocations, writes and frees; static-memory build."
 },
 "C23": {
  "status": "proved",
  "note": "Ring buffer with growth, deliveries and drops; the process layer above it is a separate property."
 },
 "C24": {
  "status": "proved",
  "note": "All histories with deadlines below 2^64; the two exceptions named in the statement are the refuted theorems."
 },
 "C25": {
  "status": "proved",
  "note": "Refinement for all plain handlers and histories; termination, never-early and silence after removal for arbitrary handlers; the two exceptions of the statement are the refuted theorems."
 },
 "C39": {
  "status": "proved",
  "note": "Remainder characterisation with uniqueness, incremental law, burst detection; the length exception is the refuted theorem."
 },
 "C45": {
  "status": "proved",
  "note": "All buffers and write sequences; vsnprintf encoding errors are not modelled."
 },
 "C26": {
  "status": "proved",
  "note": "Decision equals the specification for all inputs with rooted URIs; monotonicity and no influence of foreign entries; the exception of the statement is the refuted theorem. TLS session and certificate validity are inputs."
 },
 "C27": {
  "status": "proved",
  "note": "All histories; the exceptions of the statement are the refuted theorems."
 },
 "C47": {
  "status": "proved",
  "note": "All histories whose entries have storable form; the href-with-wildcard exception is the refuted theorem. Tree level; the byte codec (CBOR library) is not modelled."
 },
 "C28": {
  "status": "proved",
  "note": "Transitions, invariant, reset, rejected updates and updates without state proved over all histories in which key generation works; eight known exceptions are refuted with witnesses."
 },
 "C29": {
  "status": "proved",
  "note": "Exact acceptance and effect proved; value validation refuted with witnesses."
 },
 "C48": {
  "status": "proved",
  "note": "Round trips for typed values; restart theorems for histories without an application reset that is only announced (see C28 for that one)."
 },
 "C30": {
  "status": "proved",
  "note": "All histories; the exceptions of the statement are the refuted theorems. Certificates, signatures and key derivation are inputs; one client's role credentials."
 },
 "C31": {
  "status": "proved",
  "note": "Equality of answers for states equal up to private data (resource representation; not log output)."
 },
 "C49": {
  "status": "proved",
  "note": "For complete contexts, verifiable certificates and available memory; the exceptions of the statement are the refuted theorems. Tree level; the byte codec is not modelled."
 },
 "C36": {
  "status": "proved",
  "note": "All triples of endpoints; the exceptions of the statement are the refuted theorems."
 },
 "C37": {
  "status": "proved",
  "note": "inet_ntop is modelled after the GNU C library; host names are left to the resolver. The exceptions of the statement are the refuted theorems."
 },
 "C32": {
  "status": "proved",
  "note": "Five known exceptions are proved as _refuted theorems and named in the statement."
 },
 "C33": {
  "status": "proved",
  "note": "The known exception is proved as a _refuted theorem and named in the statement."
 },
 "C35": {
  "status": "proved",
  "note": "The two known exceptions are proved as _refuted theorems and named in the statement."
 },
 "C51": {
  "status": "proved",
  "note": "The two known exceptions are proved as _refuted theorems and named in the statement."
 },
 "C43": {
  "status": "proved",
  "note": "Refinement of a ring with a cursor; C43_callback_on_reinit_refuted shows the exception named in the statement."
 },
 "C42": {
  "status": "proved",
  "note": "Soundness and completeness with respect to an inductive relation between CBOR items and attribute values; the three refuted theorems show the exceptions named in the statement."
 },
 "C44": {
  "status": "proved",
  "note": ""
 },
 "C34": {
  "status": "proved",
  "note": "The statement is proved; its known exceptions are the three refuted theorems. Sending the individual response (transactions, blockwise) is taken as one message."
 },
 "C38": {
  "status": "proved",
  "note": "The refuted theorems are the known exceptions named in the statement. The pool of records is taken as unbounded (allocation failure is the same as not asking); block-wise buffers only appear as the event Buffered."
 },
 "C12": {
  "status": "proved",
  "note": "Proved for partial IVs of at most 5 bytes, all that the option can carry; beyond 40 bits nonces repeat (witness)."
 },
 "C40": {
  "status": "proved",
  "note": "All trees whose byte strings are bytes and whose object arrays are not empty; names and strings without characters that JSON escapes for the JSON part. The exceptions named in the statement are the _refuted theorems."
 },
 "C41": {
  "status": "proved",
  "note": "The properties hold for all inputs; the exceptions named in the statement are the refuted theorems."
 },
 "C52": {
  "status": "proved",
  "note": "Known exceptions are part of the statement and proved as _refuted theorems with witnesses."
 },
 "C53": {
  "status": "proved",
  "note": "Known exceptions are part of the statement and proved as _refuted theorems with witnesses."
 },
 "C54": {
  "status": "proved",
  "note": "Known exception is part of the statement and proved as a _refuted theorem with a witness."
 },
 "C55": {
  "status": "proved",
  "note": "Round trip proved with the new order stated exactly; the exceptions are proved as C55_*_refuted."
 },
 "C56": {
  "status": "proved",
  "note": "Proved for all answer sequences; the exceptions are proved as C56_*_refuted."
 },
 "C58": {
  "status": "proved",
  "note": "Proved; the exceptions are proved as C58_*_refuted."
 },
 "C59": {
  "status": "proved",
  "note": "Proved as stated. The two exceptions are C59_bare_di_refuted and C59_unknown_interface_refuted."
 },
 "C61": {
  "status": "proved",
  "note": "Proved as stated. The exceptions are C61_double_slash_refuted and C61_extra_slashes_refuted."
 },
 "C62": {
  "status": "proved",
  "note": "Proved as stated. The exception is C62_observe_without_observer_refuted."
 },
 "C63": {
  "status": "proved",
  "note": "Proved as stated. The exception is C63_tcp_block_option_refuted."
 },
 "C66": {
  "status": "proved",
  "note": "The exception for texts before 1970 is in the statement; its witness is C66_before_1970_refuted."
 },
 "C67": {
  "status": "proved",
  "note": "Exceptions have witnesses C67_*_refuted."
 },
 "C68": {
  "status": "proved",
  "note": "Exceptions have witnesses C68_*_refuted."
 },
 "C69": {
  "status": "proved",
  "note": "The baseline update answer is witnessed by C69_accepted_update_refuted."
 },
 "C70": {
  "status": "proved",
  "note": "Exceptions have witnesses C70_*_refuted."
 },
 "C72": {
  "status": "proved",
  "note": "Exceptions have witnesses C72_*_refuted."
 },
 "C73": {
  "status": "proved",
  "note": "Exceptions have witnesses C73_*_refuted."
 },
 "C74": {
  "status": "proved",
  "note": "Exceptions have witnesses C74_*_refuted."
 },
 "C75": {
  "status": "proved",
  "note": "The _refuted theorem is the witness for the exception named in the statement."
 },
 "C77": {
  "status": "proved",
  "note": "The _refuted theorem is the witness for the exception named in the statement."
 },
 "C78": {
  "status": "proved",
  "note": "The _refuted theorems are the witnesses for the exceptions named in the statement."
 },
 "C79": {
  "status": "proved",
  "note": "the known exceptions named in the statement are the theorems that end in _refuted"
 },
 "C80": {
  "status": "proved",
  "note": "the known exceptions named in the statement are the theorems that end in _refuted"
 },
 "C81": {
  "status": "proved",
  "note": "the known exceptions named in the statement are the theorems that end in _refuted"
 },
 "C82": {
  "status": "proved",
  "note": "the known exceptions named in the statement are the theorems that end in _refuted"
 },
 "C83": {
  "status": "proved",
  "note": "The _refuted theorems are the witnesses for the exceptions named in the statement."
 },
 "C84": {
  "status": "proved",
  "note": "The _refuted theorems are the witnesses for the exceptions named in the statement."
 },
 "C85": {
  "status": "proved",
  "note": "The _refuted theorems are the witnesses for the exceptions named in the statement."
 },
 "C86": {
  "status": "proved",
  "note": "The _refuted theorems are the witnesses for the exceptions named in the statement."
 },
 "C87": {
  "status": "proved",
  "note": "The _refuted theorems are the witnesses for the exceptions named in the statement."
 },
 "C91": {
  "status": "proved",
  "note": "The _refuted theorems are the witnesses for the exceptions named in the statement."
 },
 "C90": {
  "status": "proved",
  "note": "The _refuted theorems are the witnesses for the exceptions named in the statement."
 },
 "C92": {
  "status": "proved",
  "note": "The _refuted theorems are the witnesses for the exceptions named in the statement."
 },
 "C94": {
  "status": "proved",
  "note": "The _refuted theorems are the witnesses for the exceptions named in the statement."
 },
 "C95": {
  "status": "proved",
  "note": "The _refuted theorems are the witnesses for the exceptions named in the statement."
 },
 "C96": {
  "status": "proved",
  "note": "The _refuted theorems are the witnesses for the exceptions named in the statement."
 },
 "C97": {
  "status": "proved",
  "note": "The _refuted theorems are the witnesses for the exceptions named in the statement."
 },
 "C98": {
  "status": "proved",
  "note": "The _refuted theorems are the witnesses for the exceptions named in the statement."
 },
 "C99": {
  "status": "proved",
  "note": "The _refuted theorems are the witnesses for the exceptions named in the statement."
 },
 "C100": {
  "status": "proved",
  "note": "The _refuted theorems are the witnesses for the exceptions named in the statement."
 },
 "C101": {
  "status": "partial",
  "note": "The general statement is false of the code; the _partial theorems name the conditions under which it holds and the _refuted theorems are witnesses without them."
 },
 "C102": {
  "status": "proved",
  "note": "The _refuted theorems are the witnesses for the exceptions named in the statement."
 },
 "C103": {
  "status": "proved",
  "note": "The _refuted theorems are the witnesses for the exceptions named in the statement."
 },
 "C104": {
  "status": "proved",
  "note": "The _refuted theorems are the witnesses for the exceptions named in the statement."
 },
 "C105": {
  "status": "proved",
  "note": "The _refuted theorems are the witnesses for the exceptions named in the statement."
 },
 "C106": {
  "status": "proved",
  "note": "The _refuted theorems are the witnesses for the exceptions named in the statement."
 },
 "C107": {
  "status": "proved",
  "note": "The _refuted theorems are the witnesses for the exceptions named in the statement."
 },
 "C108": {
  "status": "proved",
  "note": "The _refuted theorems are the witnesses for the exceptions named in the statement."
 },
 "C109": {
  "status": "proved",
  "note": "The _refuted theorems are the witnesses for the exceptions named in the statement."
 },
 "C110": {
  "status": "proved",
  "note": "The _refuted theorems are the witnesses for the exceptions named in the statement."
 },
 "C111": {
  "status": "proved",
  "note": "The _refuted theorems are the witnesses for the exceptions named in the statement."
 },
 "C114": {
  "status": "proved",
  "note": "The _refuted theorems are the witnesses for the exceptions named in the statement."
 },
 "C115": {
  "status": "proved",
  "note": "The _refuted theorems are the witnesses for the exceptions named in the statement."
 },
 "C116": {
  "status": "proved",
  "note": "The _refuted theorems are the witnesses for the exceptions named in the statement."
 },
 "C117": {
  "status": "proved",
  "note": "The _refuted theorems are the witnesses for the exceptions named in the statement."
 },
 "C118": {
  "status": "proved",
  "note": "The _refuted theorems are the witnesses for the exceptions named in the statement."
 },
 "C119": {
  "status": "proved",
  "note": "The _refuted theorems are the witnesses for the exceptions named in the statement."
 },
 "C120": {
  "status": "proved",
  "note": "The _refuted theorems are the witnesses for the exceptions named in the statement."
 },
 "C121": {
  "status": "proved",
  "note": "The _refuted theorems are the witnesses for the exceptions named in the statement."
 },
 "C122": {
  "status": "proved",
  "note": "The _refuted theorems are the witnesses for the exceptions named in the statement."
 },
 "C123": {
  "status": "proved",
  "note": "The _refuted theorems are the witnesses for the exceptions named in the statement."
 },
 "C126": {
  "status": "proved",
  "note": "The _refuted theorems are the witnesses for the exceptions named in the statement."
 },
 "C127": {
  "status": "proved",
  "note": "The _refuted theorems are the witnesses for the exceptions named in the statement."
 },
 "C128": {
  "status": "proved",
  "note": "The _refuted theorems are the witnesses for the exceptions named in the statement."
 },
 "C129": {
  "status": "proved",
  "note": "The _refuted theorems are the witnesses for the exceptions named in the statement."
 },
 "C130": {
  "status": "proved",
  "note": "The _refuted theorems are the witnesses for the exceptions named in the statement."
 },
 "C131": {
  "status": "proved",
  "note": "The _refuted theorems are the witnesses for the exceptions named in the statement."
 },
 "C132": {
  "status": "proved",
  "note": "The _refuted theorems are the witnesses for the exceptions named in the statement."
 },
 "C133": {
  "status": "proved",
  "note": "The _refuted theorems are the witnesses for the exceptions named in the statement."
 },
 "C134": {
  "status": "proved",
  "note": "The _refuted theorems are the witnesses for the exceptions named in the statement."
 },
 "C135": {
  "status": "proved",
  "note": "The _refuted theorems are the witnesses for the exceptions named in the statement."
 },
 "C136": {
  "status": "proved",
  "note": "The _refuted theorems are the witnesses for the exceptions named in the statement."
 },
 "C137": {
  "status": "proved",
  "note": "The _refuted theorems are the witnesses for the exceptions named in the statement."
 },
 "C138": {
  "status": "proved",
  "note": "The _refuted theorems are the witnesses for the exceptions named in the statement."
 },
 "C139": {
  "status": "proved",
  "note": "The _refuted theorems are the witnesses for the exceptions named in the statement."
 },
 "C140": {
  "status": "proved",
  "note": "The _refuted theorems are the witnesses for the exceptions named in the statement."
 },
 "C141": {
  "status": "proved",
  "note": "The _refuted theorems are the witnesses for the exceptions named in the statement."
 }
}