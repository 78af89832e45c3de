{
 "C01": {
  "note": "Invariant over all programs; nan in ci_prob and 1 stored as False are exhibited as findings."
 },
 "C03": {
  "note": "Entered contexts always restore; a context that fails to be entered leaks (finding)."
 }
}