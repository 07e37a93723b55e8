.nra.cache
.lia.cache
__pycache__/
