__pycache__/
.nra.cache
.lia.cache
.nia.cache
