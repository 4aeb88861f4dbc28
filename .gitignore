.lia.cache
.nra.cache
.nia.cache
.lia.cache
