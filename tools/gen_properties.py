#!/usr/bin/env python3
"""Writes /verif/properties.jsonl (one JSON object per line)."""
import json, os
P = []
def p(id, title, statement, quantifier, why, anchors):
    P.append(dict(id=id, title=title, statement=statement, quantifier=quantifier,
                  why_tests_cant=why, anchors=anchors))

ALLB = "every byte string of every length"
p("C01", "Ethernet parsing is total and accepts exactly frames of at least 14 bytes",
  "ether::Packet::new never panics; it returns the packet (holding exactly the input bytes) when the input has at least 14 bytes and Err(SmallBuffer) otherwise.",
  ALLB, "Input length and contents are unbounded; a test samples a few frames.",
  ["src/ether/packet.rs: Packet::new, sized!"])
p("C02", "IPv4 parsing is total and its acceptance rule is exact",
  "ip::v4::Packet::no_payload and new never panic. no_payload returns SmallBuffer below 20 bytes, then InvalidPacket if the version nibble is not 4, then SmallBuffer if the input is shorter than IHL*4, else the packet; new additionally returns SmallBuffer when the input is shorter than the total-length field. Nothing else is checked: in particular IHL below 5 and a total length below the header length are accepted.",
  ALLB, "The decision depends on three interacting length fields over arbitrary buffers.",
  ["src/ip/v4/packet.rs: Packet::no_payload, Packet::new"])
p("C03", "UDP parsing is total and its acceptance rule is exact",
  "udp::Packet::no_payload never panics and accepts exactly inputs of at least 8 bytes; new never panics and accepts exactly inputs of at least 8 bytes that are at least as long as the length field; every rejection is SmallBuffer.",
  ALLB, "All lengths and all values of the length field.", ["src/udp/packet.rs: Packet::no_payload, Packet::new"])
p("C04", "TCP parsing is total and its acceptance rule is exact",
  "tcp::Packet::new never panics and accepts exactly inputs of at least 20 bytes that are at least data-offset*4 long; every rejection is SmallBuffer; data offsets below 5 are accepted.",
  ALLB, "All lengths and all data offsets.", ["src/tcp/packet.rs: Packet::new"])
p("C05", "ICMP parsers are total and select exactly the right message types",
  "icmp::Packet::new accepts exactly inputs of at least 4 bytes. The typed parsers (echo 8 bytes/types 8,0; timestamp 20/13,14; information 8/15,16; parameter problem 8/12; redirect 8/5; previous 8/3,4,11) never panic, return SmallBuffer when shorter than their minimum, otherwise InvalidPacket when the type byte is not one of theirs, otherwise the packet. No input is accepted by two typed parsers.",
  ALLB, "All buffers and all 256 type values.", ["src/icmp/packet.rs", "src/icmp/*/packet.rs: Packet::new", "src/icmp/kind.rs"])
p("C06", "Generic IP parsing dispatches on the version nibble and panics exactly on empty input",
  "ip::Packet::new/no_payload panic if and only if the input is empty; for version nibble 4 they are exactly the IPv4 parser wrapped as V4, for 6 the IPv6 parser wrapped as V6 (always accepted), otherwise Err(InvalidPacket). ip::v6::Packet::new also panics exactly on the empty input. unchecked panics exactly on empty input or another version.",
  ALLB, "All buffers, including the empty one.", ["src/ip/packet.rs", "src/ip/v6/packet.rs"])
p("C07", "Slices and sizes of accepted packets are in range and partition the buffer",
  "On every packet accepted by its checking constructor, size(), header(), payload(), split() and as_ref() never panic; for Ethernet, IPv4, TCP, UDP, ICMP, echo, information and redirect header() followed by payload() is a prefix of the buffer and header() has the length header::Size reports; Ethernet/TCP/ICMP/echo cover the whole buffer; IPv4/UDP stop at max(header length, length field). For timestamp header() is 8 bytes (not the reported 20), for parameter problem 5 (not 8) and for previous 4 (not 8).",
  "every accepted packet of every kind, any length fields", "Field-dependent slicing over arbitrary lengths.",
  ["src/size.rs", "src/*/packet.rs: split, as_ref, sized!"])
p("C08", "Field accessors panic exactly in the listed cases",
  "On an accepted packet no field accessor panics, except: ip::v4 flags() panics exactly when wire bit 13 (More Fragments) is set, and ip::v4 / tcp options() panics exactly when the header length nibble is below 5 (construction of the iterator).",
  "every accepted packet", "Depends on all bit patterns of all header fields.",
  ["src/ip/v4/packet.rs: flags, options", "src/tcp/packet.rs: options", "src/ip/v4/flag.rs"])
p("C09", "Accessors decode the RFC wire layout",
  "For a header laid out field by field per RFC 791/793/768/792/Ethernet II from arbitrary in-range field values (with any options and payload), every accessor returns the field it is named after; for IPv4 flags this holds exactly when More-Fragments is clear, and the reserved bit is what is reported as MORE_FRAGMENTS.",
  "every combination of field values, options and payload", "The product of all field domains.",
  ["src/*/packet.rs accessors"])
p("C10", "Ethernet setters: get-after-set and frame",
  "After set_source/set_destination/set_protocol on a frame of at least 14 bytes the accessor returns the value set (for protocol: the decoding of its number), the length is unchanged, and no byte outside the field changes.",
  "every frame, every address/protocol", "All values times all buffers.", ["src/ether/packet.rs: set_*"])
p("C11", "UDP setters: get-after-set and frame",
  "After set_source/set_destination/set_checksum on an accepted datagram the accessor returns the value set, the call succeeds, the length is unchanged and no byte outside the two-byte field changes.",
  "every datagram of at least 8 bytes, every u16", "All values times all buffers.", ["src/udp/packet.rs: set_*"])
p("C12", "TCP setters (other than flags): get-after-set and frame",
  "On an accepted segment with data offset at least 5, set_source, set_destination, set_sequence, set_acknowledgment, set_window, set_pointer, set_checksum succeed, the accessor returns the value set, and no byte outside the field changes. With a data offset below 5 the outcome is exactly: success iff the field lies inside data-offset*4 bytes.",
  "every segment, every value", "All values times all buffers.", ["src/tcp/packet.rs: set_*"])
p("C13", "IPv4 setters (dscp, id, ttl, protocol, addresses, checksum): get-after-set and frame",
  "On an accepted IPv4 packet with IHL at least 5 these setters succeed for in-range values, the accessor returns the value set (protocol: its decoding), and no bit outside the field changes (set_dscp preserves ECN).",
  "every packet, every value", "All values times all buffers.", ["src/ip/v4/packet.rs: set_*"])
p("C14", "set_ecn is correct exactly when the old DSCP is below 16 and the old ECN bits are contained in the new ones",
  "For ECN values 0..3, set_ecn returns Ok; afterwards ecn() equals the value and dscp() is unchanged if and only if the previous DSCP was below 16 and every previously set ECN bit is set in the new value; otherwise it corrupts DSCP (drops its two top bits) or leaves stale ECN bits.",
  "every packet of at least 2 bytes, every ECN value", "All 256 x 4 combinations in any packet.",
  ["src/ip/v4/packet.rs:287-296"])
p("C15", "IPv4 set_flags / set_offset overwrite each other's bits",
  "set_flags(f) writes f.bits() unshifted over the whole 16-bit flags+offset word: afterwards flags() is empty and offset() is the flag bits, so it is correct only for empty flags with offset 0. set_offset(v) stores v over the same word: it is correct (offset() = v and flags unchanged) exactly when v < 8192 and the top three bits were already clear; it never rejects an out-of-range offset. No other byte changes.",
  "every accepted packet with IHL >= 2, every flag set / every u16", "All values times all buffers.",
  ["src/ip/v4/packet.rs:307-320"])
p("C16", "tcp set_flags sets the nine flag bits and always clears the data offset",
  "On a segment with at least 4 header words, set_flags(f) makes flags() equal f, changes only bytes 12-13, and always makes offset() 0 (and the reserved bits 0), so header() becomes empty and the payload becomes the entire segment.",
  "every accepted segment with data offset >= 4, every flag set", "All values times all buffers.",
  ["src/tcp/packet.rs:234-241"])
p("C17", "ICMP echo/information/timestamp setters: get-after-set and frame",
  "set_identifier, set_sequence, set_originate, set_receive, set_transmit succeed on accepted packets, the accessor returns the value set and no byte outside the field changes.",
  "every accepted packet, every value", "All values times all buffers.", ["src/icmp/*/packet.rs: set_*"])
p("C18", "make_request / make_reply yield a request / reply only for echo packets",
  "On echo packets make_request makes is_request true and make_reply makes is_reply true, other bytes unchanged. On timestamp and information packets the same calls write the Echo type numbers: afterwards neither is_request nor is_reply holds and re-parsing as the same kind fails with InvalidPacket, for every packet.",
  "every accepted packet of the three kinds", "Universally quantified over packets.",
  ["src/icmp/information/packet.rs:158-169", "src/icmp/timestamp/packet.rs:177-188", "src/icmp/echo/packet.rs:159-170"])
p("C19", "Out-of-range DSCP and ECN values are rejected without effect",
  "set_dscp(v) with v > 63 and set_ecn(v) with v > 3 return Err(InvalidValue) and leave every byte unchanged, and they reject nothing else (on a buffer of fewer than 2 bytes, which only unchecked can hold, they panic).",
  "every buffer, every u8", "All values times all buffers.", ["src/ip/v4/packet.rs:275-296"])
p("C20", "IPv4 checksum is the RFC 1071 header checksum and update_checksum makes the packet valid",
  "ip::v4::checksum over any even-length header equals the Internet checksum of the header with its checksum field zeroed whenever some other word is non-zero (if all are zero it yields 0 instead of 0xffff); it never panics. After update_checksum on an accepted packet with IHL >= 3, is_valid() is true, only bytes 10-11 changed, and the ones-complement sum of the header is 0xffff as RFC 791 receivers require (with IHL below 3 it panics). is_valid() is the receiver's ones-complement test except that it refuses a stored checksum of 0xffff.",
  "every header of every even length", "Sum over arbitrarily many words with carries.",
  ["src/ip/v4/mod.rs: checksum", "src/ip/v4/packet.rs: is_valid, update_checksum"])
p("C21", "UDP checksum is the RFC 768 sum, except that a zero result is not replaced by 0xffff",
  "For an IPv4 parent, udp::checksum never panics and equals the Internet checksum of the pseudo-header and datagram (checksum field zeroed, odd length zero-padded) for every even length; for odd lengths it does so exactly under standard libraries whose Cursor keeps its position on a failed read, and otherwise silently ignores the last byte. It can be 0 (reachable), which RFC 768 reserves for 'no checksum'. update_checksum makes is_valid true and changes only bytes 6-7; is_valid is the receiver's test except for a stored 0xffff. 'Datagram' here is the whole buffer: bytes behind the length field count, so a right datagram parsed from a longer IP payload is not valid (unless those bytes and their number happen to sum to a multiple of 65535); as_ref() gives the bytes for which it is. With an IPv6 parent it always panics.",
  "every datagram, every parent address pair", "Unbounded sums, all lengths, two library behaviours.",
  ["src/udp/mod.rs: checksum", "src/udp/packet.rs: is_valid, update_checksum"])
p("C22", "TCP checksum is the RFC 793 sum for all segments up to 131065 bytes",
  "For an IPv4 parent and any segment of at most 131065 bytes the 32-bit accumulator cannot overflow, the folding loop terminates, and tcp::checksum equals the Internet checksum of pseudo-header and segment (checksum field zeroed, odd length zero-padded) for even lengths; for odd lengths it does so exactly when Cursor keeps its position on a failed read and panics otherwise. Beyond that bound an overflow is reachable: it panics with overflow checks and gives a wrong value without. update_checksum makes is_valid true and changes only bytes 16-17; is_valid is the receiver's test except for a stored 0xffff.",
  "every segment, every parent address pair, both build profiles", "Overflow depends on unbounded sums.",
  ["src/tcp/mod.rs: checksum", "src/tcp/packet.rs"])
p("C23", "ICMP checksum is the RFC 792 checksum exactly for even-length, not-all-zero messages",
  "icmp::checksum never panics; for every even-length message with a non-zero word outside the checksum it equals the Internet checksum with the checksum field zeroed; an odd trailing byte is ignored, so for odd lengths it is the checksum of the message without its last byte and differs from RFC 792 whenever that byte is non-zero; for an all-zero message (e.g. echo reply id 0 seq 0) it yields 0x0000 where RFC 792 gives 0xffff.",
  "every message of every length", "Unbounded sums, both parities.", ["src/icmp/mod.rs: checksum"])
p("C24", "A valid packet with any single byte altered is no longer valid",
  "For every valid IPv4 header (is_valid), changing any one header byte to any other value (byte 0: keeping the IHL nibble) makes is_valid false; likewise for any single byte of a valid TCP or UDP segment or of its parent's addresses, and for any byte of a valid even-length ICMP message. For odd-length ICMP messages a change of the last byte is never detected; the same holds for odd-length UDP under standard libraries whose Cursor seeks to the end on a failed read.",
  "every valid packet, every position, every replacement value", "All packets times all corruptions.",
  ["src/ip/v4/packet.rs: is_valid", "src/tcp/packet.rs: is_valid", "src/udp/packet.rs: is_valid", "src/icmp/packet.rs: is_valid"])
p("C25", "Checked guards leave a valid checksum after any sequence of setter calls",
  "After any sequence of calls (successful or rejected) on a checked() guard of an accepted IPv4 packet with IHL>=5, UDP datagram, TCP segment (of at most 131065 bytes, even length or position-keeping Cursor) with data offset >=5 and no set_flags, or echo packet, dropping the guard does not panic and is_valid() is true; with an IPv6 parent dropping a TCP or UDP guard panics. For information and timestamp packets the guard recomputes the checksum of only the first 8 / 20 bytes, so afterwards those bytes alone pass is_valid(), and the whole message passes exactly when the 16-bit words that follow them sum to a multiple of 65535 (for instance when nothing follows, or only zeros).",
  "every packet, every finite sequence of setter calls with any values", "Unbounded histories.",
  ["src/ip/v4/packet.rs: Checked", "src/udp/packet.rs: Checked", "src/tcp/packet.rs: Checked", "src/icmp/packet.rs: Checked"])
p("C26", "A checked TCP guard on which set_flags was called always panics when dropped",
  "For every accepted TCP segment and IPv4 parent and every sequence of calls on its checked() guard that contains set_flags, the program panics, at the latest when the guard is dropped.",
  "every segment and call sequence containing set_flags", "Unbounded histories.",
  ["src/tcp/packet.rs: set_flags, Checked::drop, update_checksum"])
p("C27", "Well-formed option lists are iterated completely, in order, and iteration ends",
  "For every list of well-formed TCP (IPv4) options encoded back to back, optionally followed by an End option and arbitrary padding, options() yields exactly those options in order (number, length, bytes and, for options of two or more bytes, payload as encoded) and then None forever; payload() of a one-byte option returns the whole rest of the option area instead of nothing.",
  "every finite list of options and every padding", "Unbounded lists.",
  ["src/tcp/packet.rs: OptionIter", "src/ip/v4/packet.rs: OptionIter", "src/tcp/option.rs", "src/ip/v4/option.rs"])
p("C28", "Malformed options: exact outcome, including non-termination",
  "At a malformed option the iterator's behaviour is exactly: a lone non-End/Nop kind byte at the end panics; a length larger than the rest yields Err(SmallBuffer) and then the same error on every later call (a for loop never ends); length 0 panics with overflow checks and otherwise yields the same option forever; length 1 is consumed as a one-byte option.",
  "every remaining option area, every number of later calls, both build profiles", "Infinite behaviour.",
  ["src/tcp/packet.rs: OptionIter::next", "src/ip/v4/packet.rs: OptionIter::next", "src/tcp/option.rs: sized!, new", "src/ip/v4/option.rs: sized!, new"])
p("C29", "buffer::Dynamic behaves as a stack of zeroed layers",
  "For every sequence of next/more/clear/write operations whose total size fits in memory (isize::MAX), Dynamic behaves exactly like the abstract pair (earlier layers, current layer): next starts a zero-filled layer after everything used, more appends zeroes to the current layer, data() is the current layer, offset/length/used/into_inner agree, and earlier bytes never change. Sizes whose sum overflows usize panic with overflow checks and truncate earlier layers without.",
  "every finite operation sequence", "Unbounded histories.", ["src/buffer/dynamic.rs"])
p("C30", "buffer::Slice respects its capacity and its memory outside the layer",
  "For every sequence of next/clear/write operations (and more on an empty layer) Slice behaves like the same abstract layers bounded by the slice length: next succeeds iff the space is there, otherwise returns SmallBuffer leaving the buffer unchanged; no operation changes a byte outside the newly granted area; the wrapped slice keeps its length.",
  "every finite operation sequence, every slice", "Unbounded histories.", ["src/buffer/slice.rs"])
p("C31", "buffer::Slice::more never extends a non-empty layer",
  "Whenever the current layer of a Slice is non-empty, more(n) does not append to it: it either fails with SmallBuffer, panics, or moves the layer's offset to the old end of the used area, so data() no longer starts with the layer's bytes' position (offset changes) and the data window extends past used().",
  "every reachable Slice state with a non-empty layer, every n", "Universally quantified over reachable states.",
  ["src/buffer/slice.rs:65-80"])
p("C32", "Finalizers run innermost-first and stop at the first failure",
  "Finalization::finalize runs the finalizers in reverse order of addition, each on the bytes left by the previous one, stops at the first error or panic and returns it; extend appends in order, so in a builder chain the inner layer's finalizer runs before its parent's.",
  "every list of finalizers", "Arbitrary lists of arbitrary closures.", ["src/builder.rs: Finalization"])
p("C33", "Building UDP over IPv4 (over Ethernet) round-trips",
  "For every chain of ether and IPv4 setter calls (other than ecn, flags, offset), UDP setter calls and payload with total size at most 65535, in any order and with repetitions, build() succeeds and the resulting bytes re-parse (ether, IPv4, UDP) to exactly the last value set for every field, the given payload, correct total and UDP lengths, EtherType IPv4, protocol UDP, and valid IPv4 and UDP checksums; for odd payloads the UDP checksum is right exactly when the standard library's Cursor keeps its position on a failed read.",
  "every call sequence, every value, every payload", "Unbounded histories and payloads.",
  ["src/udp/builder.rs", "src/ip/v4/builder.rs", "src/ether/builder.rs", "src/builder.rs", "src/buffer/dynamic.rs"])
p("C34", "Building TCP over IPv4 (over Ethernet) round-trips when flags is the last setter",
  "Same as C33 for TCP: for every chain of TCP setters in which flags(..) is called at most once and as the last setter (payload may come before or after), the built bytes re-parse to the values set, data offset 5, the given payload and valid checksums (payload even, or a Cursor that keeps its position on a failed read; otherwise build() panics).",
  "every call sequence, every value, every payload", "Unbounded histories and payloads.",
  ["src/tcp/builder.rs", "src/ip/v4/builder.rs"])
p("C35", "A TCP builder setter after flags never succeeds",
  "After flags(..) on a TCP builder, source(..) returns an I/O error and every other setter (destination, sequence, acknowledgment, flags, window, pointer) panics, whatever calls were made before and with any payload call in between.",
  "every preceding call sequence, every value", "Unbounded histories.", ["src/tcp/builder.rs", "src/tcp/packet.rs: set_flags"])
p("C36", "Building ICMP echo, information and timestamp messages round-trips",
  "For every chain of setters containing request() or reply() (and any payload for echo), standalone or inside IPv4, build() succeeds, the message re-parses as the same kind to the last values set, payload equal, and icmp is_valid; without request()/reply() build returns InvalidPacket.",
  "every call sequence, every value, every payload", "Unbounded histories and payloads.",
  ["src/icmp/builder.rs", "src/icmp/echo/builder.rs", "src/icmp/information/builder.rs", "src/icmp/timestamp/builder.rs"])
p("C37", "IPv4 builder payload: exact bytes; header length is wrong for payloads of 4 bytes or more",
  "Building an IPv4 packet with payload(p) directly: for payloads shorter than 4 bytes (and no payload) the bytes re-parse to the fields and payload given with a valid checksum; for 4 to 43 bytes the packet re-parses as valid, but with 5 + n/4 header words, so payload() lacks its first 4*(n/4) bytes; for 44 to 235 bytes build() succeeds and the IPv4 parser refuses the result. For every length the bytes are given exactly. Inside an Ethernet frame the version nibble so damaged decides: 4 gives type 0x0800, 6 type 0x86dd, anything else panics in build().",
  "every payload and setter sequence", "All payload lengths.", ["src/ip/v4/builder.rs: payload, prepare"])
p("C38", "Builder misuse is rejected as documented",
  "A second payload (or a sub-protocol after a payload) is rejected with AlreadyDefined (InvalidPacket for echo); generic ip, ip::v6 and icmp builders always fail with InvalidPacket on build; ICMP builders without a kind fail with InvalidPacket.",
  "every builder state", "Universally quantified over builder states.", ["src/*/builder.rs"])
p("C39", "Building a bare UDP or TCP packet always panics",
  "For every chain of setters and payload on udp::Builder::default() or tcp::Builder::default() (no enclosing IP layer), build() panics, it never returns a packet or an error; the same on any new Slice or Dynamic buffer unless a call of the chain itself fails first.",
  "every call sequence", "Unbounded histories.", ["src/udp/builder.rs: prepare", "src/tcp/builder.rs: prepare", "src/ip/v6/packet.rs: no_payload", "src/ip/packet.rs: no_payload"])
p("C40", "Oversized payloads silently wrap the length fields",
  "For a UDP-over-IPv4 chain with payload length n of any size, build() still succeeds and the length fields hold (8+n) mod 65536 and (28+n) mod 65536; hence for 28+n > 65535 the packet does not re-parse to the given payload and no error is reported.",
  "every payload length that fits in memory", "Unbounded sizes.", ["src/ip/v4/builder.rs: prepare", "src/udp/builder.rs: prepare"])
p("C41", "Slice-backed builders: same packet as Dynamic without payload, payload bytes lost with one",
  "For every payload-free chain (Ethernet, IPv4, UDP, TCP or ICMP, nested in any way) a Slice with enough room yields exactly the bytes a Dynamic buffer yields, and every byte of the slice behind the packet is left unchanged; with insufficient room the constructor returns SmallBuffer. With a non-empty payload given as the last call before build() the build fails with SmallBuffer, panics, or yields the headers followed by the slice's OLD memory with byte k of the payload stored only at position 2k behind the header's length; which of the three is decided exactly by the slice's length. Echo and direct IPv4 payloads never build.",
  "every call sequence, every slice content and size, every payload", "Unbounded histories.", ["src/buffer/slice.rs", "src/*/builder.rs"])
p("C42", "Number/enum conversions are lossless",
  "For ip::Protocol, ether::Protocol, icmp::Kind, the three ICMP code enums, both option Number enums and option Class: converting a wire number to the enum and back gives the number for every number; converting an enum value to a number and back gives the value for every value except Unknown(n)/Reserved(n) with n an assigned number; distinct named values have distinct numbers.",
  "all u8 / u16 values and all enum values", "Complete domains rather than samples.",
  ["src/ip/protocol.rs", "src/ether/protocol.rs", "src/icmp/kind.rs", "src/icmp/code.rs", "src/ip/v4/option.rs", "src/tcp/option.rs"])
p("C43", "Advertised size bounds versus accepted packets",
  "For accepted packets header::Size never exceeds header::Max; it is at least header::Min exactly when the length nibble is >= 5 (IPv4, TCP). payload::Size never exceeds payload::Max for UDP; for IPv4, TCP, Ethernet and options accepted packets exceeding payload::Max exist. Every type: header::Size lies within header::Min and header::Max, payload::Size is at least payload::Min, Size::size() is at least Min::min() and, for IPv4, UDP, information, timestamp and an ICMP error message with a parsable datagram, at most Max::max(); The header bounds are attained, and Min::min() is the length of the shortest buffer accepted, except for IPv6 (one byte, not 0) and the ICMP error messages (8 bytes, not 28). ICMP error messages can be shorter than Min::min(), and Ethernet, TCP and options longer than Max::max().",
  "every accepted packet", "All length fields.", ["src/*/packet.rs: sized!", "src/size.rs"])
p("C44", "Re-parsing the bytes of an accepted packet yields the same packet",
  "For Ethernet, TCP, UDP and ICMP packets p accepted by new, new(p.as_ref()) succeeds and every accessor, header and payload agree with p; for IPv4 it succeeds exactly when the larger of IHL*4 and total length is at least 20, and then all agree; to_owned agrees with p on every accessor; as_ref is idempotent; for information and timestamp messages as_ref is the 8 or 20 message bytes, which parse and show the same fields. (is_valid of UDP covers the whole buffer, trailing bytes included.)",
  "every accepted packet including those with trailing bytes", "All buffers with trailing data.",
  ["src/*/packet.rs: as_ref, to_owned"])
p("C45", "ICMP error messages expose the embedded datagram",
  "On accepted previous/redirect/parameter-problem messages packet() never panics and equals parsing bytes 8.. as IPv4 (so an embedded datagram cut short per RFC 792 is rejected with SmallBuffer); gateway()/pointer() return bytes 4..7 / byte 4; size() is 8 + embedded header length when the embedded packet parses and the full length otherwise.",
  "every accepted message", "All buffers.", ["src/icmp/previous/packet.rs", "src/icmp/redirect_message/packet.rs", "src/icmp/parameter_problem/packet.rs"])
p("C46", "Ethernet builder round-trips",
  "For every sequence of setters and at most one payload on an Ethernet builder, build() succeeds with a 14-byte header of the last values set followed by the payload, and the bytes re-parse to those values and that payload.",
  "every call sequence, every value, every payload", "Unbounded histories and payloads.", ["src/ether/builder.rs", "src/buffer/dynamic.rs"])
p("C47", "Debug output shows the packet",
  "Formatting an accepted packet with {:?} shows every header field under its own name with the value the accessor returns, and the payload; the name carries '!' exactly when is_valid() is false (IPv4, ICMP); it never panics. Where the crate deviates: Ethernet swaps the labels source/destination, UDP shows its length as 'checksum', timestamp messages show payload bytes for all three times, IPv4 packets with the More Fragments bit (and ICMP errors carrying one) panic, options of length 0 panic - exactly those.",
  "every accepted packet of every type", "All header values and payloads.",
  ["src/*/packet.rs: impl fmt::Debug", "src/*/option.rs: impl fmt::Debug"])
p("C48", "A builder's as_packet shows the packet so far",
  "After any sequence of setter calls and at most one payload, as_packet() of a builder (when it succeeds) is a view of the packet under construction whose accessors return the last values set; build-time fields (lengths, checksums) still read zero, so IPv4 and UDP show an empty payload; information and timestamp builders are refused until their kind is chosen.",
  "every call sequence, every value and payload, both buffer kinds, with and without outer layers", "Unbounded histories.",
  ["src/*/builder.rs: impl AsPacket"])
p("C49", "Mutable slices reach exactly the bytes the shared ones show",
  "split_mut/header_mut/payload_mut/as_mut hand out exactly the ranges split/header/payload/as_ref show, header before payload without overlap, and panic in the same cases; overwriting payload_mut() with any bytes leaves an accepted packet with the same header whose payload() is what was written, and touches nothing else; overwriting header_mut() does not touch the payload. (Exact failures: IPv4 with IHL < 5, gaps in ICMP errors.)",
  "every buffer, every packet type, every replacement contents", "All buffers and all written contents.",
  ["src/packet.rs: PacketMut", "src/*/packet.rs: split_mut, as_mut", "src/*/option.rs: split_mut"])
p("C50", "A datagram can be edited in place through split_mut and a checked guard",
  "Splitting an accepted IPv4 datagram with split_mut, wrapping the header slice as an IP packet and the payload slice as a UDP or TCP packet, and calling setters through checked(&ip) returns Ok, changes only the transport header's bytes, leaves IP header, transport length/offset, options and payload as they were, gives every field the last value set, and leaves a checksum that is_valid accepts - also against the whole datagram - and that an RFC receiver accepts (even length or a Cursor that keeps its position at EOF). If the payload does not parse, nothing is written.",
  "every accepted datagram with IHL >= 5, every sequence of setters and values", "Unbounded setter sequences, all packets.",
  ["src/udp/packet.rs: checked, split_mut", "src/tcp/packet.rs: checked, split_mut", "src/ip/v4/packet.rs: split_mut, unchecked"])
p("C51", "User finalizers run once, inside out, on the finished inner layers",
  "finalizer() functions added to the builders of an Ethernet/IPv4/UDP chain run exactly once each, the last one added first, those of the inner layer before those of the outer one: the UDP ones see a finished UDP datagram behind unfinished outer headers, the IPv4 ones a finished IPv4 packet, the Ethernet ones the finished frame (and have the last word); an error of one ends the build with that error. Without any, the build is the plain chain. In every program of any builders (all types, any calls, any buffer) the bytes are laid out as if the functions were not there and then the crate's finishing steps and the functions run once each in the opposite order of the calls that added them - a layer's own step before the functions added to its builder, these before the outer layer's step -, until one fails.",
  "every finalizer function (arbitrary length-preserving mutation), every call sequence and payload", "Higher-order: ranges over all functions.",
  ["src/builder.rs: Finalization, finalizer", "src/*/builder.rs: build, finalizer"])
p("C52", "Setter sequences: the last write to each field wins",
  "For any sequence of in-range setter calls on an accepted packet, all calls return Ok, each field reads the last value given to it or its old value, and nothing outside the fields is changed. (IPv4 set_flags/set_offset share one field and set_ecn is excluded from the DSCP statement because of its mask; information/timestamp kind setters write echo types.)",
  "every sequence of setter calls of any length on every accepted packet", "Unbounded histories.",
  ["src/*/packet.rs: setters"])
p("C53", "unchecked packets fail only by panicking, and only for missing bytes",
  "On a packet made by unchecked from arbitrary bytes every Ethernet, UDP, TCP, IPv4 and ICMP accessor returns the value of its wire field whenever the buffer holds the bytes of that field, and panics otherwise; no accessor ever reads other bytes, returns a wrong value or an Err; split() panics exactly when the lengths in the header point beyond the buffer. The sizes follow the same rule, except that payload_size of an Ethernet, ICMP, echo or TCP packet shorter than its header panics only where overflow is checked and is a huge number elsewhere (size and as_ref are then those of the whole buffer).",
  "every byte string of any length, every accessor", "All buffers, including every truncation point.",
  ["src/*/packet.rs: unchecked, accessors, split"])
p("C54", "Dissecting a received frame layer by layer",
  "The usual program - ether::Packet::new, look at protocol(), ip::Packet::new(payload()), then tcp/udp/icmp::Packet::new on the IP payload by protocol() - run on any bytes yields each kind of result for exactly the frames whose layout says so, with every layer's bytes exactly the range the headers describe (trailing Ethernet padding excluded); it panics for exactly the 14-byte frames with an IP EtherType; with ip::v4::Packet instead it never panics.",
  "every byte string", "All frames: adversarial lengths, versions, protocols and offsets.",
  ["src/ether/packet.rs", "src/ip/packet.rs", "src/ip/v4/packet.rs", "src/udp/packet.rs", "src/tcp/packet.rs", "src/icmp/packet.rs"])
p("C55", "Parsing a frame and building it again gives the same frame",
  "Taking an Ethernet/IPv4/UDP, /TCP or /ICMP-Echo frame apart with the accessors and handing every field and the payload to the builders yields the identical bytes, checksums and lengths included, for every frame without options, fragmentation or flags whose lengths agree and whose checksums the crate accepts (even length or a Cursor that keeps its position at EOF for UDP/TCP). If dscp() is called before ecn() this holds exactly when the DSCP is below 16; a frame with Don't Fragment is not reproduced although flags() is copied.",
  "every such frame, every payload", "All header values and payloads.",
  ["src/*/packet.rs: accessors", "src/*/builder.rs"])
p("C56", "Setter calls on different fields commute",
  "For every accepted packet, calling setters that write different fields in any two orders gives byte-identical packets and the same success, directly or inside checked() (with the recomputed checksum), for Ethernet, IPv4 (DSCP/ECN and flags/offset each counted as one field), UDP, TCP without set_flags, and ICMP echo, information and timestamp. TCP set_flags before another setter makes the latter panic, and set_dscp/set_ecn do not commute.",
  "every accepted packet, every list of calls, every permutation of it", "All call orders.",
  ["src/*/packet.rs: set_*", "src/*/packet.rs: checked"])
p("C57", "Recomputing a checksum is idempotent and depends on the rest of the packet only",
  "update_checksum (IPv4, UDP, TCP) and opening and dropping checked() (ICMP) give the same packet whatever checksum was stored before; they leave the packet unchanged exactly when is_valid() held (information and timestamp: is_valid of the 8 or 20 message bytes).",
  "every accepted packet (IPv4: IHL at least 3, so that the checksum is in the header; TCP: data offset at least 5, at most 131065 bytes, even length or a cursor that keeps the last byte), every stored checksum, both build profiles, both Cursor behaviours", "All packets and all stored values.",
  ["src/ip/v4/packet.rs: update_checksum, is_valid", "src/udp/packet.rs", "src/tcp/packet.rs", "src/icmp/packet.rs: Checked"])
p("C58", "A loop over the options ends exactly when the option area is well formed, and then covers it",
  "Calling next() on options() of a TCP or IPv4 packet until None ends - without panic and without an endless run of errors or options - exactly when the option area is a row of pieces (a one-byte No-Operation, a kind/length/data option whose length counts all its bytes, or a two-byte piece with length 1) reaching its end or an End-of-options byte; then the bytes (as_ref) of the options yielded, laid end to end, are exactly the area up to that point - none skipped, repeated or overlapping -, next() keeps returning None, and the loop takes at most one call per byte of the area plus one. Whether it ends does not depend on the build profile.",
  "every byte string as option area, every number of calls", "All option areas of any length; termination is a liveness claim.",
  ["src/tcp/packet.rs: OptionIter::next", "src/ip/v4/packet.rs: OptionIter::next", "src/tcp/option.rs", "src/ip/v4/option.rs"])
p("C59", "A builder edited through as_packet_mut builds what its own methods would build",
  "Any mixture of a builder's methods and of setters called on as_packet_mut()? leaves the same builder, and so the same packet, as the same calls made with the methods alone (Ethernet, IPv4, UDP, TCP with flags last, echo; information and timestamp only after request()/reply(), before which as_packet_mut is refused with InvalidPacket and the builder is unchanged). make_request/make_reply through as_packet_mut do not count as choosing an echo's kind: build() then fails with InvalidPacket. Whatever in-place change that keeps the length is made to a UDP, TCP or echo packet under construction, build() recomputes length, data offset and the internet checksum from the bytes it finds (UDP/TCP: even length or a Cursor that keeps its position at EOF, TCP up to 131065 bytes; ICMP: an odd last byte is not summed).",
  "every mixture of calls, every in-place mutation, every value and payload, both buffer kinds, with and without outer layers", "Unbounded histories; ranges over all functions.",
  ["src/*/builder.rs: impl AsPacketMut", "src/*/builder.rs: build", "src/*/packet.rs: setters"])
p("C60", "Debug and release builds agree wherever the debug build does not panic",
  "For every input - accepted packet or arbitrary bytes under unchecked, every buffer state, every sequence of builder calls of any builder type, well used or misused, with any finalizer functions and in-place edits - the call in a release build (no overflow checks) returns the same value or error, and leaves the same bytes, as in a debug build, unless the debug build panics. Where debug panics on overflow release may return nonsense (a payload size near 2^64 or 2^32, an option iterator that never advances). The version of std matters only for UDP and TCP checksums of odd-length packets.",
  "every input, every buffer state, every call sequence, both build profiles, both Cursor behaviours", "Relates two builds on all inputs.",
  ["src/size.rs", "src/buffer/*.rs", "src/*/builder.rs", "src/*/mod.rs: checksum", "src/*/packet.rs"])
p("C61", "Building on a buffer that already holds layers keeps them and appends the same packet",
  "Every program of builder calls that compiles (any start but a bare UDP or TCP builder, any calls in any order, used well or misused, in-place edits included, no user finalizers), run on a Dynamic or Slice buffer that already holds bytes, returns those bytes unchanged followed by exactly what it returns on a new buffer (for Slice: on the memory behind them), and the same errors and panics.",
  "every well-typed builder program, every held bytes, every offset and length of the current layer, both buffer kinds", "Unbounded programs and contents.",
  ["src/buffer/dynamic.rs", "src/buffer/slice.rs", "src/*/builder.rs: with, build"])
p("C62", "UDP and TCP builders over an IP header the user wrote",
  "On a buffer whose current layer is a complete IPv4 header written by the user (options included), the UDP and TCP builders give a datagram or segment whose checksum is right for the addresses in that header, behind the header unchanged (its length, protocol and checksum are the user's business). If the layer is empty or looks like IPv6, build() panics; for anything else it returns an error: InvalidPacket, except that TCP says SmallBuffer for a truncated IPv4 header.",
  "every content of the layer, everything held before it, every call sequence and payload", "All layers and payloads.",
  ["src/udp/builder.rs", "src/tcp/builder.rs", "src/udp/mod.rs: checksum", "src/tcp/mod.rs: checksum"])
p("C63", "Builders work the same over any implementation of the Buffer trait that keeps its contract",
  "For every implementation of Buffer - the user's own included - whose next, more, offset, length, data, data_mut and into_inner do what the trait's documentation says (layers are contiguous, new memory is zeroed, data_mut is the current layer), every program of builder calls (well typed or not, with any finalizers and in-place edits) returns exactly what it returns on the crate's growable buffer holding the same bytes, or the implementation's own error when it has no room; with room it is always the former. Two such implementations never build different packets. Dynamic keeps the contract; Slice does not (growing a non-empty layer moves it).",
  "every implementation of the trait (any type), every program, every held bytes", "Ranges over all types implementing a trait and all programs.",
  ["src/buffer/mod.rs: Buffer", "src/*/builder.rs", "src/buffer/dynamic.rs", "src/buffer/slice.rs: more"])
p("C64", "The generic IP packet is the IPv4 or IPv6 packet it holds",
  "ip::Packet::new accepts exactly what v4::Packet::new or v6::Packet::new accept, with the result of converting theirs (From). Header, payload, split, as_ref, header/payload/total sizes and mutable slices of the generic packet are those of the IPv4 packet (header = IHL words, payload up to the total length); for IPv6 all are empty. Converting a packet made in any way, and to_owned, keep its bytes and all slices and sizes.",
  "every byte string, every way to make the packet, both build profiles", "All inputs.",
  ["src/ip/packet.rs", "src/ip/v6/packet.rs", "src/size.rs: Size"])
p("C65", "Every builder program does what a buffer-free reference semantics says",
  "Take any program of builder calls that type-checks: any of the ten starting builders, any sequence of setters, payload and layer calls in any order and repeated at will, then build(). On a new growable buffer its outcome (bytes, error or panic) is that of a reference that only keeps the fields set so far, the payload and the enclosing headers, and at the end writes the headers with lengths, protocols and checksums filled in. The output is as long as the headers and payloads put in; as_packet at any moment shows the reference's current layer; the only panics are the five listed. In a Slice of any capacity and old contents, programs without payload do the same, with SmallBuffer from the first header that does not fit. Buffers already in use keep what they hold and get the reference's bytes behind it, and so does every other implementation of Buffer that keeps the trait's contract and has the room. A buffer cleared after any use serves like a new one, and Default gives the builder made by with() on a new growable buffer.",
  "every well-typed program (any length, any order of calls), every argument in the range of its type, every Slice, both build profiles and both std behaviours; TCP payloads up to 131045 bytes; no user finalizers or in-place edits (C51, C59)", "All programs: unit tests run a handful of call sequences.",
  ["src/builder.rs", "src/ether/builder.rs", "src/ip/builder.rs", "src/ip/v4/builder.rs", "src/ip/v6/builder.rs", "src/udp/builder.rs", "src/tcp/builder.rs", "src/icmp/builder.rs", "src/icmp/echo/builder.rs", "src/icmp/information/builder.rs", "src/icmp/timestamp/builder.rs", "src/buffer/dynamic.rs", "src/buffer/slice.rs"])
p("C66", "A builder program succeeds exactly when it is used properly, and then reads back as written",
  "A builder program that compiles, on a growable buffer, returns a packet exactly when every dscp and ecn value fits, no payload is followed by another payload or an inner layer, TCP flags is followed by no other TCP setter, and build() has what it needs (a request() or reply() for ICMP, an IPv4 layer around UDP and TCP, an even TCP payload with the older std, an inner layer for ip/icmp builders, a sane version nibble for an IPv4 payload in Ethernet); the packet is then read back by the crate's parsers with the last value given to every field of every layer, the payload, and valid checksums (total length up to 65535, no ecn/flags/offset calls on IPv4 (C14, C15), an IPv4 builder's own payload below 4 bytes (C37), a UDP payload of even length or a std that keeps the cursor (C21)). In a Slice the same programs without payloads succeed, with the same bytes, exactly when the headers fit.",
  "every well-typed sequence of builder calls with values in their types, every payload, both std behaviours, both build profiles, both buffer kinds",
  "needs an induction over call sequences of every length and order, ranging over all values",
  ["src/ether/builder.rs", "src/ip/v4/builder.rs", "src/udp/builder.rs", "src/tcp/builder.rs", "src/icmp/builder.rs", "src/builder.rs Builder"])
p("C67", "32-bit and 64-bit targets agree wherever the 32-bit debug build does not panic",
  "For every input, buffer state and builder program (as in C60), a debug build for a 32-bit target either panics or returns the same value or error, and leaves the same bytes, as every other build: 32- or 64-bit, debug or release. Ordinary builder programs whose packet stays below 2 GiB give the same packet or error in all of them. They differ only where a size wraps (release builds, unchecked packets) and where a buffer of 2 GiB or more is asked for.",
  "every input, every buffer state, every call sequence, both widths of usize, both build profiles, both Cursor behaviours", "Relates builds for different targets on all inputs; a test runs one build.",
  ["src/size.rs", "src/buffer/*.rs", "src/*/builder.rs", "src/*/mod.rs: checksum", "src/*/packet.rs"])

p("C68", "Exactly which corruptions the checksums miss",
  "Hit a valid IPv4 header, UDP datagram, TCP segment or ICMP message of even length by a burst error confined to 16 consecutive bits, at any bit position, aligned or not: is_valid still says true only if nothing changed or the burst turned 16 zero bits into 16 one bits or the reverse (and the stored checksum did not become 65535); those it never sees. The same for a burst in the IPv4 addresses, as seen by UDP and TCP. The 16-bit words in any other order (also moved between the addresses, the header and the payload) with the checksum in place are never noticed. UDP and TCP look at nothing in the IP packet but the two addresses, and only at the sum of their words modulo 65535.",
  "every valid packet (IPv4: IHL at least 3; TCP: at most 131065 bytes; odd lengths of UDP and TCP: the cursor that keeps the last byte), every burst position and pattern, every permutation of the words, every other parent, both build profiles and targets", "All bursts at all positions of all packets, and all permutations: no test suite enumerates them.",
  ["src/ip/v4/mod.rs: checksum", "src/udp/mod.rs: checksum", "src/tcp/mod.rs: checksum", "src/icmp/mod.rs: checksum", "src/*/packet.rs: is_valid"])
p("C69", "A received datagram can be forwarded, and answered in its own buffer",
  "Setting any IPv4 fields but the addresses through checked() (as a router does with the TTL) leaves the payload alone, the header valid and the UDP or TCP checksum as right or wrong as it was. Swapping the two addresses, and the ports through split_mut(), with plain setters turns a UDP or TCP packet into one from its destination to its source with the same payload (and options), and both checksums are as right or wrong as before although nothing recomputes them. Swapping the addresses and calling checked().make_reply() on the echo message answers a ping: a valid reply with the same identifier, sequence and payload. In the Ethernet frame that carried the packet, swapping the MAC addresses too gives a frame back to the sender carrying that answer.",
  "every accepted IPv4 packet with a header of at least 20 bytes (options included) holding an accepted UDP, TCP or echo packet of any length, every list of setters", "All packets and all setter sequences.",
  ["src/ip/v4/packet.rs: Checked, set_source, set_destination", "src/udp/packet.rs", "src/tcp/packet.rs", "src/icmp/echo/packet.rs: Checked", "src/packet.rs: split_mut"])

p("C70", "Recomputing a checksum is the incremental update of RFC 1624",
  "Replace one aligned 16-bit word of a valid IPv4 header, UDP datagram, TCP segment or even-length ICMP message (not the checksum itself, nor the fields that say how long the header is) and recompute: the new checksum is ~(~HC + ~m + m') in 16-bit ones'-complement arithmetic, from the old checksum HC, the old word m and the new word m' alone, as routers and translators compute it. checked().set_ttl() is an instance. The same when the word is one of the IPv4 addresses and the checksum that of UDP or TCP (NAT).",
  "every valid packet (IPv4: IHL at least 3; TCP: data offset at least 5, at most 131065 bytes; odd lengths of UDP and TCP: the cursor that keeps the last byte), every position, every new word, both build profiles and targets", "All packets, positions and words.",
  ["src/ip/v4/packet.rs: update_checksum, Checked", "src/ip/v4/mod.rs: checksum", "src/udp/packet.rs: update_checksum", "src/tcp/packet.rs: update_checksum", "src/icmp/mod.rs: checksum"])

p("C71", "A packet in use behaves as the record of its fields",
  "Take a received (or built) UDP, TCP, ICMP echo, information, timestamp or IPv4 packet, or an Ethernet frame with an IPv4 packet and UDP, TCP or echo in it, and do anything to it in any order: setters, checked() guards with any setters on them, set_checksum, update_checksum, overwriting the payload through payload_mut, on any layer. The results of all the calls, including the errors and the panic that ends the history, and the bytes at the end are those of the record of its fields on which each setter assigns one field and each checksum is recomputed from the record; the lengths never change and the record stays well formed. TCP set_flags is the exception described on the record too: it zeroes the data offset, after which set_source is an error and everything else panics.",
  "every packet and frame of any length, every finite history of actions on any layers, every IP packet given to the checksum calls, both build profiles and targets (odd lengths: the cursor that keeps the last byte)", "Histories of any length; tests run a few calls.",
  ["src/ether/packet.rs", "src/ip/v4/packet.rs: set_*, checked, Checked, update_checksum", "src/udp/packet.rs: set_*, checked, Checked, update_checksum", "src/tcp/packet.rs: set_*, checked, Checked, update_checksum", "src/icmp/echo/packet.rs", "src/packet.rs: PacketMut"])

p("C72", "A receiving program accepts what the RFCs accept, with a list of exceptions; and everything the builders make",
  "The usual receiving program - parse the Ethernet frame, require IPv4, parse it, refuse header() < 5 and an invalid checksum, require the protocol, parse the payload as UDP (with length() the whole payload), TCP (offset() at least 5) or ICMP echo, and require is_valid - gives a verdict on every frame and accepts exactly the frames that are an Ethernet header, an IPv4 header whose sum is right, and a transport packet whose sum is right under the pseudo-header (RFC 791, 768, 793, 792), except: it refuses checksums stored as 0xffff and UDP datagrams without checksum; an echo message of zeros is accepted with checksum 0 instead of 0xffff; the last byte of an ICMP message of odd length is not looked at; and where reading past the end moves the cursor, a TCP segment of odd length panics the program. Every frame the builders make is accepted, also by a program built otherwise than the one that made it, since the bytes do not depend on the build; only an odd UDP payload that does not end in zero is refused, if exactly one of the two programs has the standard library whose cursor moves to the end.",
  "every byte string as frame, every builder program, every pair of build profiles and targets (odd lengths of UDP and TCP: the cursor that keeps the last byte)", "All byte strings; the exceptions are single bit patterns out of 2^16 or more that tests do not hit.",
  ["src/ether/packet.rs", "src/ip/v4/packet.rs: new, is_valid", "src/ip/v4/mod.rs: checksum", "src/udp/packet.rs: new, is_valid", "src/udp/mod.rs: checksum", "src/tcp/packet.rs: new, is_valid", "src/tcp/mod.rs: checksum", "src/icmp/packet.rs: is_valid", "src/icmp/mod.rs: checksum", "src/icmp/echo/packet.rs: new"])

p("C73", "A guard refreshes the checksum at whatever point its block ends",
  "However a block of user code that holds a checked() guard ends - at the end of the scope, by return or `?` after a refused value, or by a panic of its own between any two calls - the calls made so far are in the packet and its checksum is valid (IPv4, UDP and TCP over IPv4, echo, information, timestamp); no setter panics, and whoever catches the panic finds the valid packet. Only forgetting the guard leaves the checksum stale. Exceptions, all of which make the drop itself panic: a TCP guard on which set_flags was called or whose segment has a data offset below 5, a TCP segment of odd length with a std whose failed read moves the cursor, and an IPv6 parent. There, leaving the block panics, and a panic of the block or of a setter (any call after set_flags other than set_source) aborts the process.",
  "every program over the guard's calls (branching on results), every point at which it leaves or panics, every accepted packet, every parent",
  "the crash points of a program are unboundedly many and an abort ends the test process",
  ["src/ip/v4/packet.rs: Checked, Drop", "src/udp/packet.rs: Checked, Drop", "src/tcp/packet.rs: Checked, Drop, set_flags", "src/icmp/packet.rs: Checked, Drop"])

p("C74", "A builder program in the caller's memory leaves the rest of it alone, however it ends",
  "When a builder works in a slice of the caller's, any payload-free program of builder calls (user finalizers and in-place edits included) leaves everything behind the headers it adds as it was, whether it returns a packet, is refused, runs out of room or panics, in a call or in a finalizer; on success the packet is at the front of the slice. A call that fails changes nothing at all, except that udp() or tcp() without room has already set the protocol of the IPv4 header. Whatever a program did, the slice keeps its length and serves the next payload-free program as if new. With a payload the builders also write behind the packet.",
  "every program of builder calls, every slice content and size, every point of failure",
  "quantifies over all programs, all memory contents and every point at which a program may fail",
  ["src/buffer/slice.rs:Slice::next", "src/buffer/slice.rs:Slice::into_inner", "src/builder.rs:Finalization", "src/ip/v4/builder.rs:Builder", "src/udp/builder.rs:Builder", "src/tcp/builder.rs:Builder", "src/icmp/builder.rs:Builder", "src/ether/builder.rs:Builder"])

p("C75", "Setters and guards on unchecked packets: what they do to any bytes",
  "Calling a setter on a packet made by unchecked from arbitrary bytes: if the field lies in the region the setter works on (the header its length nibble announces for IPv4 and TCP, eight bytes for UDP, the whole buffer otherwise) it is written and the call succeeds; a field cut off by the end of the buffer is written as far as it fits and the call returns Err(Io) (or, where the code indexes, panics and writes nothing); a field behind the end panics and nothing is written. update_checksum stores the checksum of what is there. However a setter call or a block holding a guard ends, if the process lives on then only the fields whose setters were called and the checksum can have changed, and never the length.",
  "every byte string, every setter and value, every block of calls, every build",
  "All buffers, including every truncation point and every announced header length.",
  ["src/ether/packet.rs: setters", "src/ip/v4/packet.rs: setters, Checked", "src/udp/packet.rs: setters, Checked", "src/tcp/packet.rs: setters, Checked", "src/icmp/echo/packet.rs: setters", "src/icmp/information/packet.rs: setters", "src/icmp/timestamp/packet.rs: setters", "src/icmp/packet.rs:Checked"])

p("C76", "A datagram survives any route, its TTL limits the route, and a ping gets there and back",
  "A router written with the crate (parse the frame, require IPv4, a header of five words or more, a total length that covers it and a valid checksum, drop a TTL of 1 or less, lower the TTL through checked(), set the stations) never panics, forwards exactly the frames that qualify and leaves the bytes of the others as they came. Behind a row of routers a frame is what it was except for the last router's stations, the TTL lowered by their number and a header checksum that is right again; if there are as many routers as the TTL or more, it stops at the router it reaches with a TTL of 1. What udp, tcp and echo builders made then equals what they would have made with those stations and that TTL, a receiver's verdict does not depend on the route, and a ping answered in place arrives back with addresses exchanged and identifier, sequence number and payload as sent. A header damaged in one byte is dropped by the next router.",
  "every frame (every byte string for a single router), every number of routers with any stations, every payload and setter list, every build on both ends",
  "Routes of any length and all frames; the checksum is carried through an unbounded number of recomputations.",
  ["src/ether/packet.rs:Packet", "src/ip/v4/packet.rs:Packet, checked, set_ttl, is_valid", "src/icmp/echo/packet.rs:checked, make_reply", "src/ether/builder.rs", "src/ip/v4/builder.rs", "src/udp/builder.rs", "src/tcp/builder.rs", "src/icmp/echo/builder.rs"])

p("C77", "A translator's rewriting of addresses and ports is right on every frame, and undoes itself",
  "Rewriting a frame in place (IPv4 setters through checked(), then the setters of the UDP datagram or TCP segment in its payload through checked() with that header) changes exactly the fields named and the two checksums, and gives the packet the checksums RFC 791 and RFC 768/793 call for, so that a receiver accepts it whatever its checksums were before (also when the payload was damaged). The order matters: with the transport rewritten before the source address, the frame is accepted exactly if the old and the new address have the same one's complement sum. Translating the source and translating it back gives the frame byte for byte, if its checksums were right. A translated frame is byte for byte the frame that a builder makes with that source address and port. Out through the translator, answered in place and in through the translator again, a datagram arrives from the far end at the sender's own address and port with payload (and TCP options, numbers and flags) as sent and valid checksums. Whatever the two standard libraries, a receiver accepts a translated datagram exactly if the two sum its payload alike; a translator whose Cursor moves at the end panics on every TCP segment of odd length.",
  "every frame with a UDP or TCP packet in it, with any options, padding and checksums; every list of setters (no TCP flags) that keeps the protocol; every address and port, every build on both ends (packets of odd length under standard libraries whose Cursor keeps its position at the end, as in C21; whether a translated datagram is accepted: any length and any two standard libraries)",
  "All frames, all addresses and ports, and checksum arithmetic over sums of unbounded length.",
  ["src/ip/v4/packet.rs:Packet, checked, split_mut, set_source, set_destination", "src/udp/packet.rs:checked, set_source, set_destination, is_valid", "src/tcp/packet.rs:checked, set_source, set_destination, is_valid", "src/ether/packet.rs:payload_mut", "src/udp/builder.rs", "src/tcp/builder.rs"])

p("C78", "A host answers exactly the pings (and a UDP echo service exactly the queries) sent to it, and never fails on any bytes",
  "A host written with the crate (receive as in C72, compare the destination, test is_request, answer in the received buffer as in C69) returns without panic or error on every byte string: it answers exactly the frames that hold an accepted echo request to its address, with the reply of C76, and leaves every other buffer byte for byte as it came. The answer is as long as the request, is accepted by a receiver on any build, and is not answered by any host, so pings do not multiply; through routers a ping comes back as in C76. Likewise a UDP echo service answers exactly the accepted datagrams to its address and port, and its answers are accepted; two such services keep a datagram between them going forever, every second frame being the first one byte for byte. Whatever the standard libraries, every receiver says of the answer what it says of the query; so two services on different libraries go on forever if both take the query, and stop after one answer if the second does not.",
  "every byte string as received frame, every own address and port, every build of host and receiver, every number of rounds and routers (for the service in terms of what a receiver accepts: any length and any standard library; in terms of RFC 768: datagrams of odd length under standard libraries whose Cursor keeps its position at the end, as in C21)",
  "Totality over all byte strings and an unbounded exchange of frames.",
  ["src/ether/packet.rs:Packet", "src/ip/v4/packet.rs:Packet, destination, set_source, set_destination", "src/icmp/echo/packet.rs:is_request, make_reply, checked", "src/icmp/packet.rs:is_valid", "src/udp/packet.rs:Packet, is_valid, set_source, set_destination"])

p("C79", "A sniffer that prints whatever it captures ends on every frame, and crashes exactly on the listed ones",
  "A program that parses captured bytes layer by layer, prints each layer with {:?}, loops over the IPv4 and TCP options printing each one (leaving the loop at the first Err), and prints the ICMP message inside an ICMP packet, always ends, with at most 41 calls of next() per loop. It panics exactly when the bytes are an Ethernet frame with EtherType IPv4 around an accepted IPv4 packet whose More Fragments bit is set, or whose header length is below 5, or whose option area holds, after well-formed options, a kind byte at the very end or a length byte of zero; or whose payload is an accepted TCP segment with a data offset below 5 or such an option; or an ICMP error message that quotes an accepted IPv4 packet with More Fragments set. For all other bytes it prints exactly one line for each layer that parses and for each option, in order. Which bytes crash it does not depend on profile, target or standard library. For frames given by their fields: a UDP or echo frame crashes it exactly when it is a non-last fragment or has a broken option, a TCP frame also when its segment has a broken option or its data offset was cleared by set_flags.",
  "every byte string, every bound of at least 41 iterations, every build; every frame record",
  "A complete decision over all byte strings, including termination of loops over attacker-controlled lengths.",
  ["src/ether/packet.rs:fmt", "src/ip/v4/packet.rs:fmt, options, OptionIter::next", "src/ip/v4/option.rs:new, fmt", "src/tcp/packet.rs:fmt, options, OptionIter::next", "src/tcp/option.rs:new, fmt", "src/udp/packet.rs:fmt", "src/icmp/packet.rs:fmt, echo, timestamp, information, parameter_problem, redirect_message, previous"])

p("C80", "Looking an option up by its number has the listed outcome on every packet",
  "A program that walks options() of a TCP (IPv4) packet until it meets the option number it wants and then takes its payload() has, on every accepted packet and for every wanted number from 2 up, exactly the listed outcome: the data of the first option with that number, if only well-formed options come before it (and whatever comes after it); all the option bytes after the kind byte, if that option's length byte says 1; nothing found, if there is none; SmallBuffer, if before it comes an option longer than what is left; a panic, if the area ends inside an option header, if the wanted option says it is zero bytes long, or (with overflow checks) if one before it says so; and without overflow checks an endless loop in that last case. It panics on packets whose header length is below five words.",
  "every accepted packet, every option area, every wanted number, both build profiles", "Arbitrary, possibly hostile option bytes and an unbounded loop.",
  ["src/tcp/packet.rs: options, OptionIter::next", "src/ip/v4/packet.rs: options, OptionIter::next", "src/tcp/option.rs: number, payload, split", "src/ip/v4/option.rs: number, payload, split"])
p("C81", "An ICMP error message tells which datagram it is about, if enough of it is quoted",
  "Take a program that reads an ICMP destination unreachable, source quench, redirect, time exceeded or parameter problem message and reports protocol, addresses and ports of the quoted datagram. Written with packet() and udp/tcp::Packet::new it reports them exactly when the whole quoted datagram (its total length) is in the message and its body parses; written with payload(), v4::Packet::no_payload and unchecked readers behind a length check it reports them exactly when the quoted header and four bytes of the body are there. What is reported is what the quoted bytes say, and for a datagram as some sender wrote it, with any options, the sender's addresses and ports. When both report they agree; neither panics on any message; in all other cases the error is SmallBuffer or InvalidPacket. In particular RFC 792's quotes of eight bytes are refused by packet() unless the datagram was that short.",
  "every ICMP message, every quoted header and option list, every number of quoted bytes", "Arbitrary, truncated and hostile quotes; every cut-off point.",
  ["src/icmp/previous/packet.rs: packet", "src/icmp/redirect_message/packet.rs: packet, payload", "src/icmp/parameter_problem/packet.rs: packet, payload", "src/ip/v4/packet.rs: new, no_payload, payload", "src/udp/packet.rs: new, unchecked", "src/tcp/packet.rs: new, unchecked"])
p("C82", "A TCP connection can be opened across routers and address translators",
  "Take two programs written with the crate: a client that builds a SYN frame, confirms the SYN ACK and sends its first data, and a server that answers SYNs and accepts the confirmation; each receives with checksum verification and sends with the builders. Between them stand any number of routers (each decrementing the TTL and rewriting the MAC addresses through the mutable packets) and address translators (each rewriting an address and a port through checked guards), in any order, fewer than 64 routers each way. Then every segment sent arrives with the data, sequence numbers and flags it was sent with; if the ways deliver to the right ends, then for all initial sequence numbers (wrapping included), windows and first data the three segments are built, carried and accepted, and the server ends with the client's outside address and port, its sequence number plus one and its data. On arbitrary bytes neither program fails, and each reacts exactly to the frames that hold, for an RFC 793 receiver, the segment it waits for.",
  "every pair of endpoints, every sequence of routers and translators, every initial sequence number and window, all data, every frame received at any point", "A protocol run over several programs, an unbounded number of middle boxes and arbitrary interleaved frames.",
  ["src/tcp/builder.rs", "src/ip/v4/builder.rs", "src/ether/builder.rs", "src/tcp/packet.rs: new, is_valid, accessors, setters, checked", "src/ip/v4/packet.rs: new, is_valid, accessors, setters, checked", "src/ether/packet.rs: new, accessors, setters"])
p("C83", "A TCP stream survives loss, repetition, reordering and damage",
  "A sender cuts a stream into chunks and builds one segment for each with the crate; a receiver verifies what arrives with the crate and takes, of the segments of its connection, the one whose sequence number comes next. What arrives is any list of frames: copies of segments carried over any ways of routers and translators, in any order and number; such copies with bytes changed; and anything else. Then the receiver never fails, and has at every moment exactly the concatenation of the chunks whose segments have come in their turn, hence a beginning of the stream; when whole copies of all segments have come in order, with anything between them, it has the whole stream. Changing any one byte of a received segment's frame from the Ethernet type to the end of the datagram (header lengths and version included) makes the receiver refuse it; changing one elsewhere changes nothing but the MAC addresses. This ends at a translator written with checked guards: it writes fresh checksums without looking at the old ones, so data damaged before it are received as if they had been sent.",
  "every stream below 2^32 bytes, every cut into chunks, every initial sequence number, every list of arriving frames, every damaged byte and value", "Unboundedly many schedules of loss, repetition, reordering and damage.",
  ["src/tcp/builder.rs", "src/tcp/packet.rs: new, is_valid, accessors, checked", "src/ip/v4/packet.rs: new, is_valid, accessors, checked", "src/ether/packet.rs: new, accessors"])
p("C84", "Finding the way to a host from the errors that come back",
  "A program sends UDP datagrams built with the crate to a host, with TTLs 1, 2, 3 and so on. Each router on the way takes one off the TTL; the one it ends at sends back an ICMP error written with the crate: type, code and a valid checksum, and the header and first eight bytes of the datagram as that router saw it, from its own address to the sender's. Behind the last router a host that owns the address sends a port-unreachable error. The errors travel back over the routers in front. The program verifies what comes back, reads the kind of error and the datagram it is about with the crate, and checks that it is its own probe. Then what it prints is the addresses of all routers in order and the host's at the end, or as many of these as it tries; if the host behind has another address, or if one of the two programs was built with a standard library whose Cursor seeks to the end on a failed read and the other was not and the probes end in an odd byte other than zero, or if the path has 64 routers or more (the TTL the errors are sent with), the routers in order, 64 at most, and then silence. Any bytes sent into such a path, and any bytes received, are handled without panicking.",
  "every path of routers of any length, every MAC and IP address, port, filler of any length and number of tries, every target, every pair of standard libraries; any bytes for the last claim", "Unboundedly many paths, probes and addresses; the result depends on every step of every exchange.",
  ["src/icmp/builder.rs", "src/icmp/echo/builder.rs", "src/icmp/packet.rs: new, as_mut, kind, is_valid", "src/icmp/mod.rs: checksum", "src/icmp/previous/packet.rs: packet", "src/udp/builder.rs", "src/ip/v4/packet.rs: new, ttl, header, length, accessors, checked", "src/ether/packet.rs: new, accessors"])
if __name__ == "__main__":
    out = os.path.join(os.path.dirname(os.path.abspath(__file__)), "..", "properties.jsonl")
    with open(out, "w") as f:
        for x in P: f.write(json.dumps(x, ensure_ascii=False) + "\n")
    print(len(P), "properties")
