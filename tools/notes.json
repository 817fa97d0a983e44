{
 "C03": {
  "note": "Refuted as stated. The English claim is false of the code: refuted by witnesses, together with the exact set of packets that panic and the proof that no other does."
 },
 "C21": {
  "note": "Refuted as stated. The lower bound and the rounding are false of the code: refuted, with the exact values sent and the bounds that hold."
 },
 "C22": {
  "note": "Refuted as stated. False of the code for wire intervals not divisible by 4: refuted, with the exact formula."
 },
 "C25": {
  "note": "Refuted as stated. The documented 100 ms minimum for non-connectable undirected advertising is refuted; the rest is proved."
 },
 "C36": {
  "note": "Refuted as stated. Progress past a foreign byte is refuted; what read reports is proved."
 },
 "C41": {
  "note": "Refuted as stated. False of the code: refuted for every feature selection and vendor, with the exact condition under which the status is delivered."
 },
 "C46": {
  "note": "Proved for the flags that exist; C46_unmaskable shows which events decode in builds that have no flag for them."
 },
 "C48": {
  "note": "Refuted as stated. False of the code: refuted for every feature selection, with the exact set of conforming replies that are refused."
 },
 "C51": {
  "note": "Refuted as stated. False of the code: refuted for every PHY pair, with what is reported instead."
 },
 "C52": {
  "note": "Refuted as stated. False of the code: refuted, with the exact condition under which the entries are delivered and the error otherwise."
 },
 "C54": {
  "note": "Refuted as stated. False of the code for one of the 47 constants, proved for all others."
 },
 "C56": {
  "note": "Refuted as stated. False of the code with version 5.0, with the exact condition for equal texts; proved for the earlier versions."
 },
 "C57": {
  "note": "Refuted as stated. The key is printed; the text is shown to depend on the key only."
 },
 "C58": {
  "note": "Refuted as stated. Exactly the packets of refused_event are refused; all other conforming packets are accepted."
 },
 "C59": {
  "note": "Refuted as stated. Exactly the arguments of nonconforming_arguments are sent outside the specification's ranges; everything else sent conforms."
 },
 "C60": {
  "note": "Refuted as stated. Exactly the choices outside reported_choice are lost; ample parameters leave none."
 },
 "C61": {
  "note": "Refuted as stated. Exactly the packets of taken_event are accepted."
 },
 "C63": {
  "note": "Refuted as stated. How many bytes are consumed, and when it is exactly the event, is proved."
 },
 "C67": {
  "note": "Refuted as stated. Proved: the exact result of one round and of any number of rounds, and the loss below 10 ms."
 },
 "C83": {
  "note": "Refuted as stated. A connection (or a change of parameters) with a supervision timeout of 100 ms, which the specification allows, is refused by the decoder, so the host never learns of the connection. C83_uart and C83_split: apart from these packets the two lists agree."
 },
 "C85": {
  "note": "Refuted as stated. The answer to Read Local Supported Commands is refused if the controller supports Set or Delete Reserved LT_ADDR, and the room for commands it announces is lost with it. C85_uart and C85_split: apart from these answers the numbers agree."
 },
 "C92": {
  "note": "Refuted as stated. A changed length can swallow the next packet and a changed packet type blocks the UART reader; both are proved, and that all other changes stay with their packet."
 },
 "C98": {
  "note": "Refuted as stated. Proved: the packets before are reported as sent; the exact results for a lost or extra parameter, packet type or byte between packets over a UART, and the first result and the state of the stream over an event link; for any other bytes (a lost or extra byte in the header too) what is read next and where reading goes on."
 }
}