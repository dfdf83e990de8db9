{"model": ["Sec1", "Sec451", "SecKit", "Sec9", "Sec4", "Sec6", "Sec33", "Sec8", "Sec7", "Sec2", "Sec32", "Sec28"], "spec": ["Sec1", "Sec1Spec", "PropSec1", "Sec451", "Sec451Spec", "PropSec451", "SecKit", "Sec9", "Sec9Spec", "PropSec9", "Sec4Spec", "PropSec4", "Sec6", "Sec6Spec", "PropSec6", "Sec33", "Sec33Spec", "PropSec33", "Sec8", "Sec8Spec", "PropSec8", "Sec7", "Sec7Spec", "PropSec7", "Sec2", "Sec2Spec", "PropSec2", "Sec32", "Sec32Spec", "PropSec32", "Sec28", "Sec28Proofs", "PropSec28"]}