{
 "M037": [
  "C17_integer_fields",
  "C17_malformed"
 ],
 "M145": [
  "C31_classes"
 ],
 "M244": [
  "C57_file9"
 ],
 "M410": [
  "C51_discrete_defined"
 ],
 "M352": [
  "C55_energies"
 ],
 "M634": [
  "C32_file_30"
 ]
}