{
 "m17": {
  "theorems": [
   "C61_script_partial",
   "C61_script_extension",
   "C61_latin",
   "C61_latin_extension"
  ],
  "note": "No theorem failed: nothing said which table a language names. C61 compares every table with the standard and the script of its language."
 },
 "m114": {
  "theorems": [
   "C75_new",
   "C75_template"
  ],
  "note": "No theorem failed, only an example of the project's tests: nothing said what options do. C75 is new."
 },
 "n23": {
  "theorems": [
   "C62_methods"
  ],
  "note": "No theorem failed, only examples of the project's tests: C62 was about options, not about the methods. C62_methods is new."
 },
 "n25": {
  "theorems": [],
  "note": "No claim is false of the edited program: how halves are rounded does not show below 4096 hours, and C66 claims nothing above."
 },
 "p06": {
  "theorems": [
   "C47_new",
   "C47_new_number",
   "C75_empty"
  ],
  "note": "No theorem failed: nothing said what NewAddress does without FromNumber, and C75 called the result empty without saying what that is. The three theorems are new."
 },
 "e14": {
  "theorems": [
   "C88_timestamp",
   "C88_timestamp_says"
  ],
  "note": "No theorem failed: smsdecode shows no years before 0, so C71 still held, and nothing was said of Timestamp.String on other times. C88_timestamp is for every year and zone."
 }
}