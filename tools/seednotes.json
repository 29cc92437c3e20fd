{
 "clock-read": {
  "note": "equivalent edit, kept as a control: only the proof script of clock_read_eq depends on the spelling"
 },
 "inc16": {
  "note": "equivalent edit on every instruction; survives as it should"
 },
 "key-release": {
  "note": "no instruction releases a key, the microcode module is private; survives as it should"
 },
 "safe-write": {
  "tightened": [
   "C40_safe_write",
   "C40_safe_ring"
  ],
  "note": "SafeAddressable was modelled but no theorem mentioned it; C40 now covers it and fails under this edit"
 },
 "default-ram": {
  "tightened": [
   "C105_default"
  ],
  "note": "No theorem spoke of the default machine. C105 now says what it consists of."
 },
 "chk-ram": {
  "skip": true
 },
 "p8-add": {
  "note": "equivalent edit: such code never passes the check of C132, on which C137 builds; the proofs fail on the extra case only"
 },
 "p8-drw": {
  "note": "equivalent edit: such code never passes the check of C132, on which C137 builds; the proofs fail on the extra case only"
 },
 "c8k-sprite-end": {
  "note": "equivalent edit; a proof that fails does so on the spelling"
 }
}